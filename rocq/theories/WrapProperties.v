(** C93: types, pairs and collections of arguments; help texts. *)
From Coq Require Import Lia Permutation.
From Verif Require Import PyBase PyLemmas FsModel ParameterModel SystemsModel SymbolicModel WrapModel.

(** ** hastype, find_first *)
Section Types.
Context {O C : Type}.
Variable instance : O -> C -> bool.
Variable members : O -> option (list O).
Definition of_type (x : O) (types : list C) : Prop := exists c, In c types /\ instance x c = true.
Lemma of_type_spec x types : isinstance_any instance x types = true <-> of_type x types.
Proof using. clear. unfold isinstance_any, of_type. rewrite existsb_exists. reflexivity. Qed.
Lemma try_none x types ws b : ~ of_type x ws -> try_wrappers instance members x types ws b = Ok false.
Proof using.
  clear. induction ws as [|w ws IH]; intros N; [reflexivity|]. cbn [try_wrappers]. destruct (instance x w) eqn:E.
  - exfalso. apply N. exists w. split; [left; reflexivity|exact E].
  - apply IH. intros (c & I & H). apply N. exists c. split; [right; exact I|exact H].
Qed.
Lemma try_some x types ws b : of_type x ws -> try_wrappers instance members x types ws b =
  match members x with None => Raise TypeError | Some l => Ok (if b then forallb (fun i => isinstance_any instance i types) l else existsb (fun i => isinstance_any instance i types) l) end.
Proof using.
  clear. induction ws as [|w ws IH]; intros (c & I & H); [destruct I|]. cbn [try_wrappers]. destruct (instance x w) eqn:E; [reflexivity|].
  apply IH. destruct I as [->|I]; [congruence|]. exists c. auto.
Qed.
(** An object has the type if it is an instance of one of the types, or an instance of one of the
    wrappers and: each of its members (strict), or at least one of them (otherwise),
    is an instance of one of the types. *)
Theorem C93_hastype x types wrappers strict l : members x = Some l \/ ~ of_type x wrappers ->
  exists b, hastype instance members x types wrappers strict = Ok b /\
  (b = true <-> of_type x types \/
     (of_type x wrappers /\ members x = Some l /\ if strict then forall i, In i l -> of_type i types else exists i, In i l /\ of_type i types)).
Proof using.
  clear. intros M. unfold hastype. destruct (isinstance_any instance x types) eqn:E.
  - exists true. split; [reflexivity|]. apply of_type_spec in E. split; auto.
  - assert (NT : ~ of_type x types) by (intros T; apply of_type_spec in T; congruence).
    assert (D : of_type x wrappers \/ ~ of_type x wrappers).
    { destruct (isinstance_any instance x wrappers) eqn:W; [left; apply of_type_spec, W|right; intros T; apply of_type_spec in T; congruence]. }
    destruct D as [D|D].
    + destruct M as [M|M]; [|contradiction]. rewrite (try_some x types wrappers strict D), M. eexists. split; [reflexivity|].
      destruct strict.
      * rewrite forallb_forall. split.
        -- intros H. right. split; [exact D|]. split; [reflexivity|]. intros i I. apply of_type_spec, H, I.
        -- intros [H|(_ & _ & H)] i I; [contradiction|]. apply of_type_spec, H, I.
      * rewrite existsb_exists. split.
        -- intros (i & I & H). right. split; [exact D|]. split; [reflexivity|]. exists i. split; [exact I|apply of_type_spec, H].
        -- intros [H|(_ & _ & i & I & H)]; [contradiction|]. exists i. split; [exact I|apply of_type_spec, H].
    + rewrite (try_none x types wrappers strict D). exists false. split; [reflexivity|]. split; [discriminate|]. intros [H|(H & _)]; contradiction.
Qed.
(** A wrapper that cannot be iterated over is a TypeError. *)
Theorem C93_hastype_fails x types wrappers strict : ~ of_type x types -> of_type x wrappers -> members x = None -> hastype instance members x types wrappers strict = Raise TypeError.
Proof using.
  clear. intros N W M. unfold hastype. destruct (isinstance_any instance x types) eqn:E; [apply of_type_spec in E; contradiction|]. rewrite (try_some _ _ _ _ W), M. reflexivity.
Qed.
(** A user expects strict to be the stronger test.  Refuted: an empty collection passes the
    strict test and fails the other one.  (It is the stronger test of collections that are not empty.) *)
Theorem C93_strict_refuted x types wrappers : ~ of_type x types -> of_type x wrappers -> members x = Some [] ->
  hastype instance members x types wrappers true = Ok true /\ hastype instance members x types wrappers false = Ok false.
Proof using.
  clear. intros N W M. unfold hastype. destruct (isinstance_any instance x types) eqn:E; [apply of_type_spec in E; contradiction|]. rewrite !(try_some _ _ _ _ W), M. split; reflexivity.
Qed.
Theorem C93_strict x types wrappers l : members x = Some l -> l <> [] -> hastype instance members x types wrappers true = Ok true -> hastype instance members x types wrappers false = Ok true.
Proof using.
  clear. intros M N H. destruct (C93_hastype x types wrappers true l (or_introl M)) as (b & E & S1). rewrite H in E. injection E as <-.
  destruct (C93_hastype x types wrappers false l (or_introl M)) as (b & E & S2). rewrite E. f_equal. apply S2.
  destruct (proj1 S1 eq_refl) as [T|(T & _ & A)]; [left; exact T|]. right. split; [exact T|]. split; [exact M|].
  destruct l as [|i l]; [contradiction|]. exists i. split; [left; reflexivity|apply A; left; reflexivity].
Qed.
(** The first argument of the type, if there is one. *)
Theorem C93_find_first type args :
  (forall x, find_first instance type args = Some x <-> exists before after, args = before ++ x :: after /\ instance x type = true /\ forall y, In y before -> instance y type = false) /\
  (find_first instance type args = None <-> forall y, In y args -> instance y type = false).
Proof using.
  clear. induction args as [|a args (IH1 & IH2)]; cbn [find_first].
  - split; [|split; [intros _ y []|reflexivity]]. intros x. split; [discriminate|]. intros (b & t & E & _). destruct b; discriminate E.
  - destruct (instance a type) eqn:E.
    + split.
      * intros x. split.
        -- intros H. injection H as <-. exists [], args. split; [reflexivity|]. split; [exact E|intros ? []].
        -- intros (b & t & Eq & H & N). destruct b as [|y b]; cbn [app] in Eq; [congruence|]. injection Eq as <- _. rewrite (N a (or_introl eq_refl)) in E. discriminate E.
      * split; [discriminate|]. intros H. rewrite (H a (or_introl eq_refl)) in E. discriminate E.
    + split.
      * intros x. rewrite IH1. split.
        -- intros (b & t & -> & H & N). exists (a :: b), t. split; [reflexivity|]. split; [exact H|]. intros y [<-|I]; auto.
        -- intros (b & t & Eq & H & N). destruct b as [|y b]; cbn [app] in Eq; [injection Eq as <- _; congruence|]. injection Eq as _ ->. exists b, t. split; [reflexivity|]. split; [exact H|]. intros z I. apply N. right. exact I.
      * rewrite IH2. split; [intros H y [<-|I]; auto|intros H y I; apply H; right; exact I].
Qed.
End Types.
Print Assumptions C93_hastype.
Print Assumptions C93_hastype_fails.
Print Assumptions C93_strict_refuted.
Print Assumptions C93_strict.
Print Assumptions C93_find_first.

(** ** distribute *)
(** the members of an argument *)
Definition parts {A} (x : argument_of A) : list A := match x with Single a => [a] | Several l => l end.
Definition collection {A} (x : argument_of A) : Prop := match x with Single _ => False | Several _ => True end.
(** Of two arguments of which at least one is a collection: all pairs of a member of the
    first and one of the second, each as often as its members occur, those of
    the first member first; of two single objects a TypeError. *)
Theorem C93_distribute {A B} (a : argument_of A) (b : argument_of B) :
  (collection a \/ collection b -> exists l, distribute a b = Ok l /\ length l = length (parts a) * length (parts b) /\
     forall i j x y, nth_error (parts a) i = Some x -> nth_error (parts b) j = Some y -> nth_error l (i * length (parts b) + j) = Some (x, y)) /\
  (~ collection a -> ~ collection b -> distribute a b = Raise TypeError).
Proof.
  assert (P : forall (a : list A) (b : list B), length (product a b) = length a * length b /\
     forall i j x y, nth_error a i = Some x -> nth_error b j = Some y -> nth_error (product a b) (i * length b + j) = Some (x, y)).
  { clear. intros a b. induction a as [|x a (IH1 & IH2)]; [split; [reflexivity|intros [|i] j x y; discriminate]|]. split.
    - cbn [product flat_map length]. rewrite app_length, map_length. change (flat_map _ a) with (product a b). rewrite IH1. reflexivity.
    - intros i j u v Hi Hj. cbn [product flat_map]. change (flat_map _ a) with (product a b). destruct i as [|i]; cbn [nth_error Nat.mul Nat.add] in *.
      + injection Hi as <-. assert (L : j < length b) by (apply nth_error_Some; congruence). rewrite nth_error_app1 by (rewrite map_length; exact L). exact (map_nth_error (fun y => (x, y)) j b Hj).
      + rewrite nth_error_app2 by (rewrite map_length; lia). rewrite map_length. replace (length b + i * length b + j - length b) with (i * length b + j) by lia. apply IH2; assumption. }
  split.
  - intros H. exists (product (parts a) (parts b)). split; [|apply P].
    destruct a as [x|l], b as [y|m]; cbn [distribute parts collection] in *.
    + destruct H as [[]|[]].
    + f_equal. unfold product. cbn [flat_map]. rewrite app_nil_r. reflexivity.
    + reflexivity.
    + reflexivity.
  - intros Na Nb. destruct a as [x|l], b as [y|m]; cbn [collection] in *; [reflexivity|exfalso; apply Nb; exact I|exfalso; apply Na; exact I|exfalso; apply Na; exact I].
Qed.
Print Assumptions C93_distribute.

(** ** Wrapper *)
Lemma member_eqb_spec a b : member_eqb a b = true <-> a = b.
Proof.
  destruct a as [x|x], b as [y|y]; cbn [member_eqb]; try (split; discriminate).
  - rewrite qc_eqb_eq. split; congruence.
  - rewrite str_eqb_eq. split; congruence.
Qed.
Theorem C93_wrapper x m : wrapper_len x = length (wrapped x) /\ (wrapper_contains x m = true <-> In m (wrapped x)) /\
  wrapped WNone = [] /\ wrapped (WMember m) = [m].
Proof.
  split; [reflexivity|]. split; [|split; reflexivity]. unfold wrapper_contains. rewrite existsb_exists. split.
  - intros (y & I & E). apply member_eqb_spec in E. subst y. exact I.
  - intros I. exists m. split; [exact I|apply member_eqb_spec; reflexivity].
Qed.
(** *** sorting *)
Section Sort.
Context {A : Type}.
Variable lt : A -> A -> bool.
Hypothesis trans : forall x y z, lt x y = true -> lt y z = true -> lt x z = true.
Hypothesis irrefl : forall x, lt x x = false.
Hypothesis total : forall x y, lt x y = false -> lt y x = false -> x = y.
Lemma asym x y : lt x y = true -> lt y x = false.
Proof using trans irrefl. intros H. destruct (lt y x) eqn:E; [|reflexivity]. rewrite <- (irrefl x). symmetry. eapply trans; eassumption. Qed.
Lemma not_lt_trans x y z : lt y x = true -> lt z x = false -> lt z y = false.
Proof using trans irrefl. intros H N. destruct (lt z y) eqn:E; [|reflexivity]. rewrite <- N. symmetry. eapply trans; eassumption. Qed.
Lemma insert_comm x y l : insert_by lt x (insert_by lt y l) = insert_by lt y (insert_by lt x l).
Proof using trans irrefl total.
  induction l as [|z l IH]; cbn [insert_by].
  - destruct (lt y x) eqn:E1, (lt x y) eqn:E2; try reflexivity.
    + rewrite (asym _ _ E1) in E2. discriminate E2.
    + rewrite (total _ _ E2 E1). reflexivity.
  - destruct (lt z y) eqn:Zy, (lt z x) eqn:Zx; cbn [insert_by].
    + rewrite ?Zy, ?Zx, IH. reflexivity.
    + rewrite ?Zy, ?Zx. assert (E : lt y x = false) by (destruct (lt y x) eqn:Q; [rewrite <- Zx; symmetry; eapply trans; eassumption|reflexivity]).
      destruct (lt x y) eqn:Q; [cbn [insert_by]; rewrite ?Zy; reflexivity|]. exfalso. rewrite (total _ _ Q E) in Zx. congruence.
    + rewrite ?Zy, ?Zx. assert (E : lt x y = false) by (destruct (lt x y) eqn:Q; [rewrite <- Zy; symmetry; eapply trans; eassumption|reflexivity]).
      destruct (lt y x) eqn:Q; [cbn [insert_by]; rewrite ?Zx; reflexivity|]. exfalso. rewrite (total _ _ E Q) in Zx. congruence.
    + rewrite ?Zy, ?Zx. destruct (lt y x) eqn:E1, (lt x y) eqn:E2; cbn [insert_by]; rewrite ?Zy, ?Zx, ?E1, ?E2; try reflexivity.
      * rewrite (asym _ _ E1) in E2. discriminate E2.
      * rewrite (total _ _ E2 E1). reflexivity.
Qed.
Lemma sort_perm l l' : Permutation l l' -> sort_by lt l = sort_by lt l'.
Proof using trans irrefl total.
  unfold sort_by. intros P. induction P as [|x l l' P IH|x y l|l l' l'' P1 IH1 P2 IH2]; cbn [fold_right]; [reflexivity|rewrite IH; reflexivity|apply insert_comm|congruence].
Qed.
Lemma insert_permutes x l : Permutation (x :: l) (insert_by lt x l).
Proof using.
  clear. induction l as [|y l IH]; cbn [insert_by]; [apply Permutation_refl|]. destruct (lt y x); [|apply Permutation_refl].
  eapply Permutation_trans; [apply perm_swap|]. apply perm_skip, IH.
Qed.
Lemma sort_permutes l : Permutation l (sort_by lt l).
Proof using.
  clear. unfold sort_by. induction l as [|x l IH]; cbn [fold_right]; [apply Permutation_refl|].
  eapply Permutation_trans; [apply perm_skip, IH|apply insert_permutes].
Qed.
End Sort.

(** a strict total order on all members: texts after numbers *)
Definition full_lt (a b : member) : bool :=
  match a, b with MNumber x, MNumber y => qc_ltb x y | MText x, MText y => str_ltb x y | MNumber _, MText _ => true | MText _, MNumber _ => false end.
Lemma full_facts : (forall x y z, full_lt x y = true -> full_lt y z = true -> full_lt x z = true) /\ (forall x, full_lt x x = false) /\
  (forall x y, full_lt x y = false -> full_lt y x = false -> x = y).
Proof.
  split; [|split].
  - intros [x|x] [y|y] [z|z]; cbn [full_lt]; intros H1 H2; try discriminate; try reflexivity.
    + destruct (qc_ltb_spec x y) as [A|]; [|discriminate]. destruct (qc_ltb_spec y z) as [B|]; [|discriminate]. destruct (qc_ltb_spec x z) as [|N]; [reflexivity|].
      exfalso. apply N. eapply Qclt_trans; eassumption.
    + eapply str_ltb_trans; eassumption.
  - intros [x|x]; cbn [full_lt]; [apply qc_ltb_irrefl|apply str_ltb_irrefl].
  - intros [x|x] [y|y]; cbn [full_lt]; intros H1 H2; try discriminate; f_equal.
    + destruct (qc_ltb_spec x y) as [|A]; [discriminate|]. destruct (qc_ltb_spec y x) as [|B]; [discriminate|]. apply Qcnot_lt_le in A, B. apply Qcle_antisym; assumption.
    + apply str_ltb_total; assumption.
Qed.
Lemma sort_full l : (forall x y, In x l -> In y l -> same_kind x y = true) -> sort_by lt_of l = sort_by full_lt l.
Proof.
  assert (I : forall x l, (forall y, In y l -> same_kind x y = true) -> insert_by lt_of x l = insert_by full_lt x l).
  { intros x m. induction m as [|y m IH]; intros K; [reflexivity|]. cbn [insert_by].
    assert (E : lt_of y x = full_lt y x) by (specialize (K y (or_introl eq_refl)); destruct x, y; try discriminate K; reflexivity).
    rewrite E, IH by (intros z Hz; apply K; right; exact Hz). reflexivity. }
  unfold sort_by. induction l as [|x l IH]; intros K; [reflexivity|]. cbn [fold_right]. rewrite IH by (intros; apply K; right; assumption).
  apply I. intros y Hy. apply K; [left; reflexivity|right]. apply (Permutation_in y (Permutation_sym (sort_permutes full_lt l))). exact Hy.
Qed.
(** numbers only, or texts only, or one member *)
Definition one_kind (l : list member) : Prop := (exists q, l = map MNumber q) \/ (exists t, l = map MText t).
Lemma one_kind_spec l : one_kind l <-> match l with [] => True | a :: l' => forallb (same_kind a) l' = true end.
Proof.
  destruct l as [|a l]; [split; [auto|intros _; left; exists []; reflexivity]|]. rewrite forallb_forall. split.
  - intros [([|q0 q] & E)|([|t0 t] & E)]; cbn [map] in E; try discriminate E; injection E as -> ->; intros x I; apply in_map_iff in I as (z & <- & _); reflexivity.
  - intros K. destruct a as [q|t]; [left|right].
    + assert (X : exists m, l = map MNumber m).
      { induction l as [|b l IH]; [exists []; reflexivity|]. destruct IH as (m & ->); [intros; apply K; right; assumption|]. specialize (K b (or_introl eq_refl)). destruct b as [p|]; [|discriminate K]. exists (p :: m). reflexivity. }
      destruct X as (m & ->). exists (q :: m). reflexivity.
    + assert (X : exists m, l = map MText m).
      { induction l as [|b l IH]; [exists []; reflexivity|]. destruct IH as (m & ->); [intros; apply K; right; assumption|]. specialize (K b (or_introl eq_refl)). destruct b as [|p]; [discriminate K|]. exists (p :: m). reflexivity. }
      destruct X as (m & ->). exists (t :: m). reflexivity.
Qed.
Lemma sorted_spec l : (one_kind l -> sorted l = Ok (sort_by full_lt l)) /\ (~ one_kind l -> sorted l = Raise TypeError).
Proof.
  pose proof (one_kind_spec l) as S. split; intros K.
  - assert (Q : forall x y, In x l -> In y l -> same_kind x y = true).
    { destruct K as [(q & ->)|(t & ->)]; intros x y I J; apply in_map_iff in I as (? & <- & _); apply in_map_iff in J as (? & <- & _); reflexivity. }
    apply S in K. destruct l as [|a l]; [reflexivity|]. unfold sorted. rewrite K, sort_full by exact Q. reflexivity.
  - destruct l as [|a l]; [exfalso; apply K, S; exact I|]. unfold sorted. destruct (forallb (same_kind a) l) eqn:E; [|reflexivity]. exfalso. apply K, S. reflexivity.
Qed.
Lemma members_eqb_spec a b : members_eqb a b = true <-> a = b.
Proof.
  revert b. induction a as [|x a IH]; intros [|y b]; cbn [members_eqb]; try (split; [discriminate|intros K; discriminate K]); [split; reflexivity|].
  rewrite Bool.andb_true_iff, IH, member_eqb_spec. split; [intros (K1 & K2); rewrite K1, K2; reflexivity|intros K; injection K as K1 K2; split; assumption].
Qed.
(** Two wrapped objects are equal if they have the same members, each as often, in whatever order. *)
Theorem C93_wrapper_equal x y : one_kind (wrapped x) -> one_kind (wrapped y) ->
  exists b, wrapper_eq x y = Ok b /\ (b = true <-> Permutation (wrapped x) (wrapped y)).
Proof.
  intros Kx Ky. unfold wrapper_eq. rewrite (proj1 (sorted_spec _) Kx), (proj1 (sorted_spec _) Ky). eexists. split; [reflexivity|].
  rewrite members_eqb_spec. destruct full_facts as (T & I & To). split.
  - intros E. eapply Permutation_trans; [apply (sort_permutes full_lt)|]. rewrite E. apply Permutation_sym, sort_permutes.
  - apply sort_perm; assumption.
Qed.
(** The documentation says: if they have equal arguments.  Refuted: the order does not matter, and a single
    object equals the collection of it. *)
Theorem C93_wrapper_order_refuted a b : one_kind [a; b] -> wrapper_eq (WMany [a; b]) (WMany [b; a]) = Ok true /\ wrapper_eq (WMember a) (WMany [a]) = Ok true.
Proof.
  intros K. split.
  - assert (K' : one_kind [b; a]).
    { destruct K as [(q & E)|(q & E)]; destruct q as [|u [|v [|w q]]]; try discriminate E; injection E as -> ->; [left|right]; exists [v; u]; reflexivity. }
    destruct (C93_wrapper_equal (WMany [a; b]) (WMany [b; a]) K K') as (r & E & S). rewrite E. f_equal. apply S. apply perm_swap.
  - assert (K' : one_kind [a]) by (apply one_kind_spec; reflexivity).
    destruct (C93_wrapper_equal (WMember a) (WMany [a]) K' K') as (r & E & S). rewrite E. f_equal. apply S. apply Permutation_refl.
Qed.
(** Refuted: every wrapped object equals itself.  Members of different kinds make the comparison fail. *)
Theorem C93_wrapper_mixed_refuted x y : ~ one_kind (wrapped x) -> wrapper_eq x y = Raise TypeError.
Proof. intros K. unfold wrapper_eq. rewrite (proj2 (sorted_spec _) K). reflexivity. Qed.
(** Refuted: a wrapped object has a text.  Only a wrapped text has one. *)
Theorem C93_wrapper_text_refuted x : (forall t, x <> WMember (MText t)) -> wrapper_str x = Raise TypeError.
Proof. destruct x as [|[q|t]|l]; intros N; try reflexivity. exfalso. apply (N t). reflexivity. Qed.
Print Assumptions C93_wrapper.
Print Assumptions C93_wrapper_equal.
Print Assumptions C93_wrapper_order_refuted.
Print Assumptions C93_wrapper_mixed_refuted.
Print Assumptions C93_wrapper_text_refuted.

(** ** help texts *)
Lemma skip_newlines n c t : Forall (eq newline) n -> c <> newline -> lstrip_chars (Ascii.eqb newline) (n ++ c :: t) = c :: t.
Proof.
  intros F N. induction F as [|a n <- F IH]; cbn [app lstrip_chars]; [|rewrite Ascii.eqb_refl; exact IH].
  destruct (Ascii.eqb_spec newline c); [congruence|reflexivity].
Qed.
Lemma first_line_spec l r : ~ In newline l -> r = [] \/ (exists r', r = newline :: r') -> first_line (l ++ r) = l.
Proof.
  intros N H. induction l as [|c l IH]; cbn [app first_line].
  - destruct H as [->|(r' & ->)]; reflexivity.
  - destruct (Ascii.eqb_spec c newline) as [->|]; [exfalso; apply N; left; reflexivity|]. rewrite IH; [reflexivity|]. intros I. apply N. right. exact I.
Qed.
(** The summary of a documented object is the first line of its documentation that is not
    empty; as a phrase, with a small first letter and without the periods at the end. *)
Theorem C93_help x replacements blank line rest body dots :
  replaced (match x with DText t => t | DObject (Some t) => t | DObject None => s "None" end) replacements = blank ++ line ++ rest ->
  Forall (eq newline) blank -> ~ In newline line -> (rest = [] \/ exists rest', rest = newline :: rest') ->
  (line <> [] -> doc2help x false replacements = Ok line) /\
  (forall c, line = c :: body ++ dots -> Forall (eq "."%char) dots -> (body = [] \/ exists b d, body = b ++ [d] /\ d <> "."%char) ->
     doc2help x true replacements = Ok (lower_char c :: body)).
Proof.
  intros E F N R. assert (D : replaced (doc_target x) replacements = blank ++ line ++ rest) by exact E.
  assert (Sm : line <> [] -> summary_of (replaced (doc_target x) replacements) = line).
  { intros Ne. unfold summary_of. rewrite D. destruct line as [|c l]; [contradiction|]. cbn [app]. rewrite (skip_newlines blank c (l ++ rest) F); [apply (first_line_spec (c :: l) rest N R)|].
    intros ->. apply N. left. reflexivity. }
  split.
  - intros Ne. unfold doc2help. rewrite (Sm Ne). reflexivity.
  - intros c El Fd B. unfold doc2help. rewrite Sm by (rewrite El; discriminate). rewrite El. unfold phrase_of. do 2 f_equal.
    rewrite rev_app_distr. assert (Fr : Forall (eq "."%char) (rev dots)) by (apply Forall_rev; exact Fd).
    transitivity (rev (lstrip_chars (Ascii.eqb ".") (rev body))).
    + f_equal. induction Fr as [|a d <- Fr IH]; [reflexivity|]. exact IH.
    + destruct B as [->|(b & d & -> & Nd)]; [reflexivity|]. rewrite rev_app_distr. cbn [rev app lstrip_chars].
      destruct (Ascii.eqb_spec "." d); [congruence|]. cbn [rev]. rewrite rev_involutive. reflexivity.
Qed.
(** Without any documentation the summary is the word None; of an empty text there is no phrase. *)
Theorem C93_no_help_refuted : doc2help (DObject None) false [] = Ok (s "None") /\ doc2help (DObject None) true [] = Ok (s "none") /\
  forall blank, Forall (eq newline) blank -> doc2help (DText blank) false [] = Ok [] /\ doc2help (DText blank) true [] = Raise IndexError.
Proof.
  split; [reflexivity|]. split; [reflexivity|]. intros blank F. unfold doc2help, replaced, doc_target. cbn [fold_left].
  assert (E : summary_of blank = []).
  { unfold summary_of. induction F as [|a l <- F IH]; [reflexivity|]. cbn [lstrip_chars]. rewrite Ascii.eqb_refl. exact IH. }
  rewrite E. split; reflexivity.
Qed.
(** The documentation says that a phrase is in lower case.  Refuted: only its first letter is. *)
Theorem C93_phrase_case_refuted : doc2help (DText (s "Run EPREM.")) true [] = Ok (s "run EPREM").
Proof. reflexivity. Qed.
Print Assumptions C93_help.
Print Assumptions C93_no_help_refuted.
Print Assumptions C93_phrase_case_refuted.

(** ** cases *)
Inductive class_case := Int | Float | List | Tuple.
Inductive object_case := OInt | OFloat | OList (l : list object_case).
Definition instance_case (x : object_case) (c : class_case) : bool := match x, c with OInt, Int | OFloat, Float | OList _, List => true | _, _ => false end.
Definition members_case (x : object_case) : option (list object_case) := match x with OList l => Some l | _ => None end.
Example C93_hastype_case : hastype instance_case members_case (OList [OInt; OFloat]) [Int] [List] false = Ok true /\
  hastype instance_case members_case (OList [OInt; OFloat]) [Int] [List] true = Ok false /\ hastype instance_case members_case (OList [OInt; OInt]) [Int] [Tuple] false = Ok false /\
  hastype instance_case members_case OInt [Float; Int] [] true = Ok true /\ hastype instance_case members_case OInt [Float] [Int] true = Raise TypeError /\
  find_first instance_case Float [OInt; OFloat] = Some OFloat.
Proof. repeat split. Qed.
Example C93_distribute_case : distribute (Several [1; 2]) (Several [s "a"; s "b"]) = Ok [(1, s "a"); (1, s "b"); (2, s "a"); (2, s "b")] /\ distribute (Single 1) (Several [s "a"; s "b"]) = Ok [(1, s "a"); (1, s "b")].
Proof. split; reflexivity. Qed.
Example C93_wrapper_case : one_kind [MText (s "b"); MText (s "a"); MText (s "b")] /\
  wrapper_eq (WMany [MText (s "b"); MText (s "a"); MText (s "b")]) (WMany [MText (s "b"); MText (s "b"); MText (s "a")]) = Ok true /\
  wrapper_eq (WMany [MText (s "b"); MText (s "a"); MText (s "b")]) (WMany [MText (s "a"); MText (s "b"); MText (s "a")]) = Ok false /\
  ~ one_kind [MText (s "b"); MNumber 1%Qc].
Proof. split; [right; exists [s "b"; s "a"; s "b"]; reflexivity|]. split; [reflexivity|]. split; [reflexivity|]. rewrite one_kind_spec. discriminate. Qed.
Example C93_help_case : let text := [newline] ++ s "Run the Program..." ++ newline :: s "    More." in
  doc2help (DObject (Some text)) false [] = Ok (s "Run the Program...") /\ doc2help (DText text) true [] = Ok (s "run the Program") /\ doc2help (DText text) false [(s "Program", s "code"); (s "code", s "simulation")] = Ok (s "Run the simulation...").
Proof. vm_compute. repeat split. Qed.
