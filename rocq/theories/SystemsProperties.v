(** * C70: metric systems *)
From Verif Require Import PyBase PyLemmas SymbolicModel SymbolicSpec SymbolicProofs SymbolicParse SymbolicRoundTrip SymbolicAlgebra AliasedModel MetricModel MetricSpec MetricTables UnitModel UnitOpsModel UnitOpsSpec UnitOpsProofs UnitOpsTables UnitOpsProofs3 NormalizeModel NormalizeProofs2 NormalizeProperties SystemsModel SystemsSpec SystemsProofs.

(** ** One object per name *)

(** Over any history of requests, two requests give the same quantity (or the
    same system) exactly when their names agree up to case. *)
Theorem C70_singletons xs i j x x' o o' : nth_error xs i = Some x -> nth_error xs j = Some x' ->
  nth_error (fst (singletons no_objects xs)) i = Some o -> nth_error (fst (singletons no_objects xs)) j = Some o' ->
  (s_id o = s_id o' <-> same_name x x').
Proof.
  destruct (singletons no_objects xs) as (os, st) eqn:E. cbn [fst]. intros Hi Hj Oi Oj. destruct (singletons_ok _ _ _ _ registered_none E) as ((R1 & R2) & _ & F).
  assert (K : forall i x o, nth_error xs i = Some x -> nth_error os i = Some o -> find_object (objects st) (lower x) = Some o).
  { clear - F. induction F as [|y p ys ps H F IH]; intros [|i] x o; cbn; try discriminate; [intros [= <-] [= <-]; exact H|apply IH]. }
  pose proof (K _ _ _ Hi Oi) as Fi. pose proof (K _ _ _ Hj Oj) as Fj. rewrite <- lower_same. split.
  - intros H. exact (R2 _ _ _ _ (find_object_in _ _ _ Fi) (find_object_in _ _ _ Fj) H).
  - intros H. rewrite H in Fi. congruence.
Qed.
(** Every request is answered, and an object equals exactly the strings that are
    its name up to case. *)
Theorem C70_named xs i x o : nth_error xs i = Some x -> nth_error (fst (singletons no_objects xs)) i = Some o ->
  forall z, quantity_eq_str o z = true <-> same_name z x.
Proof.
  destruct (singletons no_objects xs) as (os, st) eqn:E. cbn [fst]. intros Hi Oi z. destruct (singletons_ok _ _ _ _ registered_none E) as ((R1 & R2) & _ & F).
  assert (Fi : find_object (objects st) (lower x) = Some o).
  { clear - F Hi Oi. revert i Hi Oi. induction F as [|y p ys ps H F IH]; intros [|i]; cbn; try discriminate; [intros [= <-] [= <-]; exact H|apply IH]. }
  unfold quantity_eq_str. rewrite (proj1 (R1 _ _ (find_object_in _ _ _ Fi))), <- lower_same. split; [apply str_eqb_eq|intros ->; apply str_eqb_refl].
Qed.
Theorem C70_answered xs : length (fst (singletons no_objects xs)) = length xs.
Proof. generalize no_objects. induction xs as [|x xs IH]; intros st; [reflexivity|]. cbn. destruct (singleton st x) as (o, st1). specialize (IH st1). destruct (singletons st1 xs). cbn in *. congruence. Qed.
Print Assumptions C70_singletons.
Print Assumptions C70_named.
Print Assumptions C70_answered.
Example C70_singletons_case : let os := fst (singletons no_objects [s "Length"; s "mass"; s "LENGTH"]) in map s_id os = [0; 1; 0].
Proof. vm_compute. reflexivity. Qed.

Section C70.
Set Default Proof Using "Type".
Variable libm : Qc -> Qc -> option Qc.
Variable limit : nat.
Hypothesis deep : 8 <= limit.
Notation dimension_in y u := (unit_dimension libm named_unit quantity_unit quantity_dim y u).
Notation get := (get_unit libm limit).
(** the quantities of the tables *)
Definition quantities : list str := map fst QUANTITIES.
(** a [Dimension]: a canonical expression whose numbers are doubles and are
    printed in full *)
Definition proper_dimension (d : list operand) : Prop := canonical d /\ Forall doubles d /\ printable d = true.

Lemma table_names : map fst CANONICAL_DIMS = quantities.
Proof. vm_compute. reflexivity. Qed.
Lemma row_proper y e : In e CANONICAL_DIMS -> exists v, dim_text y e = Ok v /\ expression_of_str libm v = Ok (row_dim libm y e) /\ proper_dimension (row_dim libm y e).
Proof.
  intros I. pose proof (proj1 (forallb_forall _ _) (dim_rows libm) y (in_systems y)) as K. pose proof (proj1 (forallb_forall _ _) K e I) as C. clear K. revert C. unfold dim_row_check, row_dim.
  destruct (dim_text y e) as [v|]; [|discriminate]. destruct (expression_of_str libm v) as [d|] eqn:Ev; [|discriminate]. intros C. exists v. split; [reflexivity|]. split; [exact Ev|].
  apply andb_true_iff in C as (C & C4). apply andb_true_iff in C as (C & C3). apply andb_true_iff in C as (C1 & C2). destruct (SymbolicModel.reduce d) as [r|] eqn:R; [|discriminate]. apply terms_same_eq in C4. subst r.
  assert (P : plain 2 d) by (apply Forall_forall; intros t Ht; apply plain_check_ok; exact (proj1 (forallb_forall _ _) C2 t Ht)).
  assert (C : canonical d) by (eapply reduce_canonical; [|eapply (plain_ok 2), P|exact R]; destruct d; [discriminate|congruence]).
  split; [exact C|]. split; [|apply (plain_printable _ C), (plain_more 2 4), P].
  - apply Forall_forall. intros t Ht. pose proof (proj1 (forallb_forall _ _) C3 t Ht) as D. apply andb_true_iff in D as (D1 & D2). apply qc_eqb_eq in D1, D2. split; assumption.
Qed.
Lemma matches y e d : In e CANONICAL_DIMS -> proper_dimension d -> exists v b, dim_text y e = Ok v /\ dim_matches libm v (DObj d) = Ok b /\ (b = true <-> d = row_dim libm y e).
Proof.
  intros I (C & D & _). destruct (row_proper y e I) as (v & V & E & C' & D' & _). exists v, (eeq d (row_dim libm y e)). split; [exact V|]. unfold dim_matches. rewrite E. split; [reflexivity|]. split.
  - intros H. apply canonical_eq; [exact C|exact C'|]. apply eeq_same; assumption.
  - intros ->. apply eeq_refl.
Qed.
(** [q] has dimension [d] in the system [y], according to the tables *)
Definition listed (y : system) (q : str) (d : list operand) : Prop := exists v, quantity_dim q y = Some v /\ expression_of_str libm v = Ok d.
Lemma rows_listed : forallb (fun y => forallb (fun e => match quantity_dim (fst e) y, dim_text y e with Some v, Ok w => str_eqb v w | _, _ => false end) CANONICAL_DIMS) [Mks; Cgs] = true.
Proof. vm_compute. reflexivity. Qed.
Lemma listed_row y q d : listed y q d <-> exists e, In (q, e) CANONICAL_DIMS /\ d = row_dim libm y (q, e).
Proof.
  split.
  - intros (v & Q & E). unfold quantity_dim, in_table in Q. destruct (assoc CANONICAL_DIMS q) as [(m, c)|] eqn:A; [|discriminate Q].
    exists (m, c). split; [apply assoc_in; exact A|]. unfold row_dim, dim_text. cbn [fst snd]. destruct y; [destruct m|destruct c]; try discriminate Q; injection Q as ->; rewrite E; reflexivity.
  - intros (e & I & ->). pose proof (proj1 (forallb_forall _ _) rows_listed y (in_systems y)) as K. pose proof (proj1 (forallb_forall _ _) K _ I) as C. clear K. cbn [fst] in C.
    destruct (row_proper y _ I) as (v & V & E & _). rewrite V in C. destruct (quantity_dim q y) as [w|] eqn:W; [|discriminate C]. apply str_eqb_eq in C. subst w. exists v. split; [exact W|exact E].
Qed.
(** The quantities of a dimension are those that the tables list with it. *)
Theorem C70_quantities y d : proper_dimension d -> exists l, dimension_quantities libm y d = Ok l /\ forall q, In q l <-> listed y q d.
Proof.
  intros P. unfold dimension_quantities.
  assert (G : forall T, (forall e, In e T -> In e CANONICAL_DIMS) -> exists bs, mapM (fun e => v <- (match y with Mks => fst (snd e) | Cgs => snd (snd e) end) ;; b <- dim_matches libm v (DObj d) ;; Ok (fst e, b)) T = Ok bs /\
    forall q, In q (map fst (filter snd bs)) <-> exists e, In (q, e) T /\ d = row_dim libm y (q, e)).
  { induction T as [|e T IH]; intros S; [exists []; split; [reflexivity|]; intros q; split; [intros []|intros (? & [] & _)]|]. destruct IH as (bs & E & H); [intros; apply S; right; assumption|].
    destruct (matches y e d (S e (or_introl eq_refl)) P) as (v & b & V & B & K). cbn [mapM]. change (match y with Mks => fst (snd e) | Cgs => snd (snd e) end) with (dim_text y e). rewrite V. cbn [bind]. rewrite B. cbn [bind]. rewrite E. cbn [bind].
    exists ((fst e, b) :: bs). split; [reflexivity|]. intros q. cbn [filter snd]. destruct e as (k, e). cbn [fst] in *.
    destruct b; cbn [map fst In]; rewrite H; split.
    - intros [<-|(f & F & G)]; [exists e; split; [left; reflexivity|apply K; reflexivity]|exists f; auto].
    - intros (f & [[= <- <-]|F] & G); [left; reflexivity|right; exists f; auto].
    - intros (f & F & G). exists f; auto.
    - intros (f & [[= <- <-]|F] & G); [apply K in G; discriminate G|exists f; auto]. }
  destruct (G CANONICAL_DIMS (fun _ H => H)) as (bs & -> & H). cbn [bind]. eexists. split; [reflexivity|]. intros q. rewrite H. symmetry. apply listed_row.
Qed.

(** ** The unit of a quantity *)
Lemma getitem_row y e : In e CANONICAL_DIMS -> exists w, quantity_unit (fst e) y = Some w /\ quantity_getitem libm limit (fst e) y = arg_terms libm named_unit (UStr w).
Proof using deep.
  intros I. destruct (Nat.le_exists_sub 8 limit deep) as (k & L & _). rewrite Nat.add_comm in L. pose proof (proj1 (forallb_forall _ _) (property_rows libm k) y (in_systems y)) as K. pose proof (proj1 (forallb_forall _ _) K e I) as C. clear K.
  unfold property_check in C. rewrite <- L in C. unfold quantity_getitem. destruct (property libm limit true y (fst e)) as [v|]; [|discriminate C]. destruct (quantity_unit (fst e) y) as [w|]; [|discriminate C].
  apply str_eqb_eq in C. subst w. exists v. split; reflexivity.
Qed.
Lemma unit_row y e : In e CANONICAL_DIMS -> odd y (fst e) = false -> exists w t u, quantity_unit (fst e) y = Some w /\ arg_terms libm named_unit (UStr w) = Ok (t :: u) /\ dimension_in y (t :: u) = Ok (Some (row_dim libm y e)).
Proof.
  intros I O. pose proof (proj1 (forallb_forall _ _) (unit_rows libm) y (in_systems y)) as K. pose proof (proj1 (forallb_forall _ _) K e I) as C. clear K. unfold unit_row_check in C. rewrite O in C. cbn [orb] in C.
  destruct (quantity_unit (fst e) y) as [w|]; [|discriminate C]. exists w. destruct (arg_terms libm named_unit (UStr w)) as [[|t u]|] eqn:A; try discriminate C. exists t, u. split; [reflexivity|]. split; [reflexivity|].
  destruct (unit_dimension libm named_unit quantity_unit quantity_dim y (t :: u)) as [[d|]|]; try discriminate C. apply terms_same_eq in C. subst d. reflexivity.
Qed.
Lemma lower_names : forallb (fun q => str_eqb (lower q) q && negb (str_eqb q (s "1"))) quantities = true.
Proof. vm_compute. reflexivity. Qed.
Lemma name_row q : In q quantities -> exists e, In (q, e) CANONICAL_DIMS.
Proof. rewrite <- table_names. intros I. apply in_map_iff in I as ((k, e) & <- & I). exists e. exact I. Qed.
Lemma search_one y t : str_eqb (target_text t) (s "1") = false -> search_targets libm limit y [t] = (r <- from_target libm limit y t ;; match r with Some (x :: r) => Ok (x :: r) | _ => Raise SearchError end).
Proof. intros H. cbn [search_targets]. rewrite H. reflexivity. Qed.
(** A quantity, under its name in any case, has a unit in each system, and that
    unit has the dimension of the quantity. *)
Theorem C70_unit_of_quantity y q x : In q quantities -> ~ faulty y q -> same_name x q ->
  exists u d, get y None None (Some (QName x)) = Ok u /\ system_getitem libm limit y (QName x) = Ok u /\ dimension_in y u = Ok (Some d) /\ listed y q d.
Proof using deep.
  intros I N L. apply lower_same in L. pose proof (proj1 (forallb_forall _ _) lower_names q I) as K. apply andb_true_iff in K as (K1 & K2). apply str_eqb_eq in K1. rewrite K1 in L.
  destruct (name_row q I) as (e & E). assert (O : odd y q = false) by (destruct (odd y q) eqn:O; [apply odd_faulty in O; contradiction|reflexivity]).
  destruct (getitem_row y _ E) as (w & W & G). destruct (unit_row y _ E O) as (w' & t & u & W' & A & D). cbn [fst] in *. rewrite W in W'. injection W' as <-. rewrite A in G.
  assert (Gx : system_getitem libm limit y (QName x) = Ok (t :: u)) by (unfold system_getitem; rewrite L; exact G).
  exists (t :: u), (row_dim libm y (q, e)). split; [|split; [exact Gx|split; [exact D|apply listed_row; exists e; auto]]].
  unfold get_unit, given. cbn [app]. assert (X : x <> []) by (intros ->; cbn in L; subst q; revert I; clear; vm_compute; intuition discriminate).
  assert (X1 : str_eqb x (s "1") = false) by (apply str_eqb_neq; intros ->; change (lower (s "1")) with (s "1") in L; rewrite <- L in K2; discriminate K2).
  replace (is_null (TQty (QName x))) with false by (destruct x; [congruence|reflexivity]).
  rewrite search_one by exact X1. cbn [from_target]. rewrite Gx. reflexivity.
Qed.

(** ** The unit of a dimension *)
Lemma first_dimension_row y d : proper_dimension d -> forall T, (forall e, In e T -> In e CANONICAL_DIMS) ->
  first_dimension libm y (DObj d) T = Ok (option_map fst (first_row libm y d T)).
Proof.
  intros P. induction T as [|(q, (m, c)) T IH]; intros S; [reflexivity|]. cbn [first_dimension]. change (match y with Mks => m | Cgs => c end) with (dim_text y (q, (m, c))).
  destruct (matches y _ d (S _ (or_introl eq_refl)) P) as (v & b & -> & B & K). cbn [bind]. rewrite B. cbn [bind]. unfold first_row. cbn [find]. destruct b.
  - pose proof (proj1 K eq_refl) as X. rewrite X, terms_same_refl. reflexivity.
  - destruct (terms_same (row_dim libm y (q, (m, c))) d) eqn:E; [apply terms_same_eq in E; symmetry in E; apply K in E; discriminate E|]. apply IH. intros; apply S; right; assumption.
Qed.
Lemma one_dimension y : listed y (s "identity") [const_term 1].
Proof. exists (s "1"). split; [destruct y; vm_compute; reflexivity|]. change (s "1") with (format_expression [const_term 1]). apply (parse_format libm); [apply canonical_one|reflexivity]. Qed.
Lemma text_one d : proper_dimension d -> str_eqb (format_expression d) (s "1") = true -> d = [const_term 1].
Proof using libm.
  intros (C & _ & Pr) H. apply str_eqb_eq in H. pose proof (parse_format libm d C Pr) as E. rewrite H in E. change (s "1") with (format_expression [const_term 1]) in E.
  rewrite (parse_format libm) in E by first [apply canonical_one|reflexivity]. congruence.
Qed.
Lemma identity_unit y : exists w, quantity_unit (s "identity") y = Some w /\ arg_terms libm named_unit (UStr w) = Ok [const_term 1] /\ dimension_in y [const_term 1] = Ok (Some [const_term 1]).
Proof.
  exists (s "1"). split; [destruct y; vm_compute; reflexivity|]. split; [destruct y; vm_compute; f_equal; f_equal|destruct y; vm_compute; reflexivity].
Qed.
Lemma identity_get y : system_getitem libm limit y (QName (s "identity")) = Ok [const_term 1].
Proof using deep.
  destruct (name_row (s "identity")) as (e & E); [vm_compute; tauto|]. destruct (getitem_row y _ E) as (w & W & G). destruct (identity_unit y) as (w' & W' & A & _). cbn [fst] in *. rewrite W in W'. injection W' as <-.
  unfold system_getitem. change (lower (s "identity")) with (s "identity"). rewrite G. exact A.
Qed.
Lemma null_dim d : canonical d -> is_null (TDim (DObj d)) = false.
Proof. intros C. destruct (canonical_cons d C) as (t & ts & ->). reflexivity. Qed.
(** A dimension that some quantity has determines a unit, that of one of the
    quantities with this dimension, and the unit has that dimension. *)
Theorem C70_unit_of_dimension y d : proper_dimension d -> (exists q, listed y q d) -> (y = Mks -> ~ listed Mks (s "resistivity") d /\ ~ listed Mks (s "permittivity") d) ->
  forall qty, exists q u, get y None (Some (DObj d)) qty = Ok u /\ listed y q d /\ system_getitem libm limit y (QName q) = Ok u /\ dimension_in y u = Ok (Some d).
Proof using deep.
  intros P (q0 & L0) N qty. unfold get_unit, given. cbn [app]. rewrite null_dim by apply P. cbn [app search_targets target_text].
  destruct (str_eqb (format_expression d) (s "1")) eqn:F1.
  - apply (text_one d P) in F1. subst d. exists (s "identity"), [const_term 1]. split; [apply identity_get|]. split; [apply one_dimension|]. split; [apply identity_get|]. destruct (identity_unit y) as (_ & _ & _ & D). exact D.
  - cbn [from_target]. unfold unit_from_dimension. rewrite (first_dimension_row y d P CANONICAL_DIMS (fun _ H => H)). cbn [bind].
    apply listed_row in L0 as (e0 & I0 & E0). pose proof (proj1 (forallb_forall _ _) (first_rows libm) y (in_systems y)) as K. pose proof (proj1 (forallb_forall _ _) K _ I0) as C. clear K. unfold first_check in C. rewrite <- E0 in C.
    destruct (first_row libm y d CANONICAL_DIMS) as [(q, e)|] eqn:Fr; [|discriminate C]. cbn [option_map fst] in *.
    apply find_some in Fr as (I & Fr). apply terms_same_eq in Fr.
    assert (L : listed y q d) by (apply listed_row; exists e; auto).
    assert (O : odd y q = false).
    { destruct (odd y q) eqn:O; [|reflexivity]. exfalso. cbn [negb orb] in C. apply odd_faulty in O as (-> & _). destruct (N eq_refl) as (N1 & N2).
      cbn [existsb] in C. destruct (str_eqb q (s "resistivity")) eqn:E1; [apply str_eqb_eq in E1; subst q; contradiction|]. destruct (str_eqb q (s "permittivity")) eqn:E2; [apply str_eqb_eq in E2; subst q; contradiction|]. discriminate C. }
    destruct (unit_row y _ I O) as (w & t & u & W & A & D). cbn [fst] in W. rewrite W, A. cbn [bind]. exists q, (t :: u). split; [reflexivity|]. split; [exact L|]. rewrite Fr in D. split; [|exact D].
    destruct (getitem_row y _ I) as (w' & W' & G). cbn [fst] in *. rewrite W in W'. injection W' as <-.
    assert (Iq : In q quantities) by (rewrite <- table_names; exact (in_map fst _ _ I)).
    pose proof (proj1 (forallb_forall _ _) lower_names q Iq) as K. apply andb_true_iff in K as (K1 & _). apply str_eqb_eq in K1. unfold system_getitem. rewrite K1, G. exact A.
Qed.
(** A dimension that no quantity has determines no unit; the quantity, if one is
    given, is used instead. *)
Theorem C70_no_unit_of_dimension y d : proper_dimension d -> (forall q, ~ listed y q d) ->
  get y None (Some (DObj d)) None = Raise SearchError /\ forall q, get y None (Some (DObj d)) (Some q) = get y None None (Some q).
Proof using deep.
  intros P N. assert (F1 : str_eqb (format_expression d) (s "1") = false).
  { destruct (str_eqb (format_expression d) (s "1")) eqn:F; [|reflexivity]. apply (text_one d P) in F. subst d. destruct (N _ (one_dimension y)). }
  assert (U : unit_from_dimension libm y (DObj d) = Ok None).
  { unfold unit_from_dimension. rewrite (first_dimension_row y d P CANONICAL_DIMS (fun _ H => H)). cbn [bind]. destruct (first_row libm y d CANONICAL_DIMS) as [(q, e)|] eqn:Fr; [|reflexivity].
    apply find_some in Fr as (I & Fr). apply terms_same_eq in Fr. destruct (N q). apply listed_row. exists e. auto. }
  assert (G : forall rest, search_targets libm limit y (TDim (DObj d) :: rest) = search_targets libm limit y rest) by (intros rest; cbn [search_targets target_text from_target]; rewrite F1, U; reflexivity).
  unfold get_unit, given. rewrite null_dim by apply P. cbn [app]. split; [rewrite G; reflexivity|]. intros q. apply G.
Qed.
(** A unit that can be normalised takes precedence over a dimension and a quantity. *)
Theorem C70_unit_first y u r d q : u <> [] -> format_expression u <> s "1" -> normalize libm limit y u = Ok r -> r <> [] -> get y (Some (UObj u)) d q = Ok r.
Proof.
  intros N F E R. unfold get_unit, given at 1. destruct u as [|t u]; [congruence|]. cbn [is_null app]. cbn [search_targets target_text]. rewrite (proj2 (str_eqb_neq _ _) F).
  cbn [from_target unit_from_unit bind]. rewrite E. cbn [bind]. destruct r; [congruence|reflexivity].
Qed.
(** Nothing given: no unit. *)
Theorem C70_nothing y : get y None None None = Raise SearchError.
Proof. reflexivity. Qed.

(** ** Equivalent quantities *)
Theorem C70_equivalent order a b : In a quantities -> In b quantities -> (forall y, In y order -> ~ faulty y a /\ ~ faulty y b) ->
  exists r, quantity_or libm limit order a b = Ok r /\ (r = true <-> forall y, In y order -> exists d, listed y a d /\ listed y b d).
Proof using deep.
  intros A B. induction order as [|y order IH]; intros N; [exists true; split; [reflexivity|]; split; [intros _ y []|reflexivity]|].
  destruct IH as (r & R & H); [intros; apply N; right; assumption|]. destruct (N y (or_introl eq_refl)) as (Na & Nb).
  assert (G : forall q, In q quantities -> ~ faulty y q -> exists e, In (q, e) CANONICAL_DIMS /\ quantity_dimension libm limit q y = Ok (Some (row_dim libm y (q, e)))).
  { intros q I F. destruct (name_row q I) as (e & E). exists e. split; [exact E|]. assert (O : odd y q = false) by (destruct (odd y q) eqn:O; [apply odd_faulty in O; contradiction|reflexivity]).
    destruct (getitem_row y _ E) as (w & W & G). destruct (unit_row y _ E O) as (w' & t & u & W' & Ar & D). cbn [fst] in *. rewrite W in W'. injection W' as <-. unfold quantity_dimension. rewrite G, Ar. cbn [bind]. exact D. }
  destruct (G a A Na) as (ea & Ia & Da). destruct (G b B Nb) as (eb & Ib & Db). cbn [quantity_or]. rewrite Da, Db. cbn [bind dim_eq].
  destruct (row_proper y _ Ia) as (va & Va & Ea & Ca & Fa & _). destruct (row_proper y _ Ib) as (vb & Vb & Eb & Cb & Fb & _).
  assert (La : listed y a (row_dim libm y (a, ea))) by (apply listed_row; exists ea; auto). assert (Lb : listed y b (row_dim libm y (b, eb))) by (apply listed_row; exists eb; auto).
  assert (U : forall q d d', listed y q d -> listed y q d' -> d = d') by (intros q d d' (v & V & E) (v' & V' & E'); congruence).
  destruct (eeq (row_dim libm y (a, ea)) (row_dim libm y (b, eb))) eqn:Q.
  - assert (X : row_dim libm y (a, ea) = row_dim libm y (b, eb)) by (apply canonical_eq; [exact Ca|exact Cb|apply eeq_same; assumption]).
    exists r. split; [exact R|]. rewrite H. split; [intros K z [<-|Z]; [exists (row_dim libm y (a, ea)); split; [exact La|rewrite X; exact Lb]|apply K, Z]|intros K z Z; apply K; right; exact Z].
  - exists false. split; [reflexivity|]. split; [discriminate|]. intros K. destruct (K y (or_introl eq_refl)) as (d & Ka & Kb). exfalso. rewrite (U _ _ _ La Ka), (U _ _ _ Lb Kb), eeq_refl in Q. discriminate.
Qed.

(** ** What does not hold *)

(** An unknown name - any symbol that is not the name of a quantity - is not
    reported as unknown: the look-up recurses until the interpreter stops it. *)
Lemma starts_with_app p x : starts_with p x = true -> x = p ++ skipn (length p) x.
Proof. revert x. induction p as [|c p IH]; intros [|d x] H; try discriminate H; try reflexivity. cbn in *. apply andb_true_iff in H as (E & H). apply Ascii.eqb_eq in E. subst d. rewrite <- (IH x H). reflexivity. Qed.
Lemma starts_with_in p x c : starts_with p x = true -> In c p -> In c x.
Proof. intros H I. rewrite (starts_with_app p x H). apply in_or_app. left. exact I. Qed.
Lemma in_skipn {A} n (x : list A) c : In c (skipn n x) -> In c x.
Proof. revert x. induction n as [|n IH]; intros [|d x] H; try exact H. right. apply IH, H. Qed.
Lemma replace_same old : forall f x, replace_from f old old x = x.
Proof. induction f as [|f IH]; intros x; [reflexivity|]. destruct x as [|c x]; [reflexivity|]. cbn [replace_from]. destruct (starts_with old (c :: x)) eqn:E; [rewrite IH; symmetry; apply starts_with_app, E|rewrite IH; reflexivity]. Qed.
Lemma replace_none old new c : In c old -> forall f x, ~ In c x -> replace_from f old new x = x.
Proof.
  intros I. induction f as [|f IH]; intros x N; [reflexivity|]. destruct x as [|d x]; [reflexivity|]. cbn [replace_from]. destruct (starts_with old (d :: x)) eqn:E; [destruct N; exact (starts_with_in _ _ _ E I)|].
  f_equal. apply IH. intros H. apply N. right. exact H.
Qed.
Lemma underscores_same k : ~ In " "%char k -> blanks_to_underscores k = k.
Proof. induction k as [|c k IH]; [reflexivity|]. intros N. cbn. destruct (Ascii.eqb c " ") eqn:E; [apply Ascii.eqb_eq in E; subst; destruct N; left; reflexivity|]. f_equal. apply IH. intros H. apply N. right. exact H. Qed.
Lemma names_kept x : ~ In " "%char x -> forall ks, fold_left (fun x k => replace k (blanks_to_underscores k) x) ks x = x.
Proof.
  intros N. induction ks as [|k ks IH]; [reflexivity|]. cbn [fold_left]. replace (replace k (blanks_to_underscores k) x) with x; [exact IH|]. symmetry. unfold replace.
  destruct (in_dec ascii_dec " "%char k) as [I|I]; [apply (replace_none _ _ _ I), N|rewrite (underscores_same k I); apply replace_same].
Qed.
Lemma blanks_same x : ~ In "_"%char x -> underscores_to_blanks x = x.
Proof. induction x as [|c x IH]; [reflexivity|]. intros N. cbn. destruct (Ascii.eqb c "_") eqn:E; [apply Ascii.eqb_eq in E; subst; destruct N; left; reflexivity|]. f_equal. apply IH. intros H. apply N. right. exact H. Qed.
Lemma symbol_no_blank x : is_symbol x = true -> ~ In " "%char x.
Proof.
  destruct x as [|c x]; [discriminate|]. cbn [is_symbol]. intros H. apply andb_true_iff in H as (_ & K). assert (G : forall x, (fix go (x : str) : bool := match x with [] => true | c :: x' => if is_basechar c then go x' else forallb is_digit x end) x = true -> ~ In " "%char x); [|exact (G (c :: x) K)]. clear. intros x K I. revert K.
  induction x as [|d x IH]; [destruct I|]. destruct I as [->|I].
  - intros K. change (is_basechar " "%char) with false in K. cbn in K. discriminate K.
  - destruct (is_basechar d); [exact (IH I)|]. intros K. pose proof (proj1 (forallb_forall _ _) K " "%char (or_intror I)) as D. discriminate D.
Qed.
Lemma assoc_none {A} (l : list (str * A)) k : ~ In k (map fst l) -> assoc l k = None.
Proof. intros N. destruct (assoc l k) as [a|] eqn:E; [|reflexivity]. destruct N. exact (in_map fst _ _ (assoc_in _ _ _ E)). Qed.
Lemma single_canonical b e : base_is_valid b = true -> b <> one_base -> e <> 0%Qc -> canonical [var_term b e].
Proof.
  intros V N E. exists 1%Qc, [var_term b e]. repeat split.
  - discriminate.
  - repeat constructor. eexists _, _. eauto.
  - repeat constructor.
  - repeat constructor. intros [].
Qed.
Lemma property_unknown y x : is_symbol x = true -> sqrt_prefix x = false -> ~ In "_"%char x -> ~ In x quantities -> forall f, property libm f true y x = Raise RecursionError.
Proof.
  intros S Q U N. induction f as [|f IH]; [reflexivity|]. cbn [property]. rewrite (assoc_none QUANTITIES x N), (names_kept x (symbol_no_blank x S)).
  assert (X1 : x <> one_base) by (intros ->; discriminate S).
  assert (C : canonical [var_term x 1]) by (apply single_canonical; [apply symbol_valid, S|exact X1|discriminate]).
  assert (E : expression_of_str libm x = Ok [var_term x 1]).
  { replace x with (format_expression [var_term x 1]) at 1; [apply parse_format; [exact C|]|].
    - unfold printable. cbn [forallb]. unfold printable_term. cbn [var_term base expo coef]. rewrite (proj2 (str_eqb_neq _ _) X1), S, Q. reflexivity.
    - unfold format_expression. cbn [map join]. unfold format_term, format_coefficient, format_exponent. cbn [var_term base coef expo].
      replace (str_eqb x (s "1")) with false by (symmetry; apply str_eqb_neq; exact X1). change (qc_eqb 1 1) with true. cbn [negb andb orb app]. rewrite ?app_nil_r. reflexivity. }
  rewrite E. cbn [bind mapM var_term base]. rewrite (blanks_same x U), IH. reflexivity.
Qed.
Theorem C70_unknown_refuted y x : is_symbol (lower x) = true -> sqrt_prefix (lower x) = false -> ~ In "_"%char (lower x) -> ~ In (lower x) quantities ->
  system_getitem libm limit y (QName x) = Raise RecursionError.
Proof. intros S Q U N. unfold system_getitem, quantity_getitem. rewrite property_unknown by assumption. reflexivity. Qed.
(** A dimension given as a string is compared as text: 'L/T' has no unit,
    'L T^-1' has. *)
Theorem C70_text_dimension_refuted y : get y None (Some (DText (s "L/T"))) None = Raise SearchError /\
  (exists u, get y None (Some (DText (s "L T^-1"))) None = Ok u) /\
  exists d, expression_of_str libm (s "L/T") = Ok d /\ expression_of_str libm (s "L T^-1") = Ok d.
Proof.
  split; [destruct y; vm_compute; reflexivity|]. split; [destruct y; eexists; vm_compute; reflexivity|].
  exists [var_term (s "L") 1; var_term (s "T") (- (1))%Qc]. split; vm_compute; do 3 f_equal; apply Qc_is_canon; reflexivity.
Qed.
Lemma resistance_unit k : get_unit libm (8 + k) Mks None None (Some (QName (s "resistance"))) = Raise ValueError.
Proof. vm_compute. reflexivity. Qed.
Lemma values_mks k : system_values libm (8 + k) Mks = Raise ValueError.
Proof. vm_compute. reflexivity. Qed.
Definition permittivity_unit : list operand := [var_term (s "F") 1; var_term (s "m") (- (1))%Qc].
Lemma permittivity_get k : match get_unit libm (8 + k) Mks None None (Some (QName (s "permittivity"))) with Ok u => terms_same u permittivity_unit | Raise _ => false end = true.
Proof. vm_compute. reflexivity. Qed.
Lemma permittivity_dim : match dimension_in Mks permittivity_unit with Ok (Some d) => qc_eqb (mono_expo (s "I") d) (zq 2) | _ => false end = true.
Proof. vm_compute. reflexivity. Qed.
Lemma permittivity_listed : match quantity_dim (s "permittivity") Mks with Some v => match expression_of_str libm v with Ok d => qc_eqb (mono_expo (s "I") d) (zq 1) | _ => false end | _ => false end = true.
Proof. vm_compute. reflexivity. Qed.
(** The faulty entries: the resistance has no unit in MKS, so the values of the
    MKS system cannot be listed; the permittivity has another dimension than its
    unit. *)
Theorem C70_faulty_refuted : get Mks None None (Some (QName (s "resistance"))) = Raise ValueError /\ system_values libm limit Mks = Raise ValueError /\
  exists u d d', get Mks None None (Some (QName (s "permittivity"))) = Ok u /\ dimension_in Mks u = Ok (Some d) /\ listed Mks (s "permittivity") d' /\ mono_expo (s "I") d = zq 2 /\ mono_expo (s "I") d' = zq 1.
Proof using deep.
  destruct (Nat.le_exists_sub 8 limit deep) as (k & -> & _). rewrite Nat.add_comm.
  split; [apply resistance_unit|]. split; [apply values_mks|].
  pose proof (permittivity_get k) as G. destruct (get_unit libm (8 + k) Mks None None (Some (QName (s "permittivity")))) as [u|]; [|discriminate G]. apply terms_same_eq in G. subst u.
  pose proof permittivity_dim as D. destruct (dimension_in Mks permittivity_unit) as [[d|]|] eqn:Ed; try discriminate D. apply qc_eqb_eq in D.
  pose proof permittivity_listed as L. destruct (quantity_dim (s "permittivity") Mks) as [v|] eqn:V; [|discriminate L]. destruct (expression_of_str libm v) as [d'|] eqn:E; [|discriminate L]. apply qc_eqb_eq in L.
  exists permittivity_unit, d, d'. split; [reflexivity|]. split; [exact Ed|]. split; [exists v; split; [exact V|exact E]|]. split; assumption.
Qed.
(** All CGS values can be listed. *)
Theorem C70_values : exists l, system_values libm limit Cgs = Ok l /\ length l = length QUANTITIES.
Proof using deep.
  unfold system_values. assert (G : forall T, (forall e, In e T -> In (fst e) quantities) -> exists l, mapM (fun e : str * qdef => system_getitem libm limit Cgs (QName (fst e))) T = Ok l /\ length l = length T).
  { induction T as [|e T IH]; intros S; [exists []; split; reflexivity|]. destruct IH as (l & L & H); [intros; apply S; right; assumption|].
    destruct (C70_unit_of_quantity Cgs (fst e) (fst e)) as (u & d & _ & U & _); [apply S; left; reflexivity|intros (? & _); discriminate|apply lower_same; reflexivity|].
    cbn [mapM]. rewrite U. cbn [bind]. rewrite L. cbn [bind]. exists (u :: l). split; [reflexivity|]. cbn. rewrite H. reflexivity. }
  destruct (G QUANTITIES) as (l & L & H); [intros e I; exact (in_map fst _ _ I)|]. exists l. split; assumption.
Qed.
End C70.
Print Assumptions C70_quantities.
Print Assumptions C70_unit_of_quantity.
Print Assumptions C70_unit_of_dimension.
Print Assumptions C70_no_unit_of_dimension.
Print Assumptions C70_unit_first.
Print Assumptions C70_nothing.
Print Assumptions C70_equivalent.
Print Assumptions C70_values.
Print Assumptions C70_unknown_refuted.
Print Assumptions C70_text_dimension_refuted.
Print Assumptions C70_faulty_refuted.

(** ** The hypotheses are met *)
Definition speed_dim : list operand := [var_term (s "L") 1; var_term (s "T") (- (1))%Qc].
Lemma speed_proper : proper_dimension speed_dim.
Proof.
  split; [|split; [|reflexivity]].
  - exists 1%Qc, speed_dim. repeat split; try discriminate.
    + repeat constructor; eexists _, _; repeat split; try discriminate; reflexivity.
    + repeat constructor.
    + repeat constructor; cbn; intuition discriminate.
  - repeat constructor; apply Qc_is_canon; vm_compute; reflexivity.
Qed.
Example C70_dimension_case libm : exists l, dimension_quantities libm Mks speed_dim = Ok l /\ In (s "velocity") l /\ ~ In (s "length") l.
Proof.
  destruct (C70_quantities libm Mks speed_dim speed_proper) as (l & E & H). exists l. split; [exact E|]. rewrite !H. split.
  - eexists. split; [vm_compute; reflexivity|]. vm_compute. do 3 f_equal.
  - intros (v & V & P). vm_compute in V. injection V as <-. vm_compute in P. discriminate P.
Qed.
Example C70_unknown_case : is_symbol (lower (s "Loudness")) = true /\ sqrt_prefix (lower (s "Loudness")) = false /\ ~ In "_"%char (lower (s "Loudness")) /\ ~ In (lower (s "Loudness")) quantities.
Proof. split; [reflexivity|]. split; [reflexivity|]. split; vm_compute; intuition discriminate. Qed.
(** energy and work are equivalent in both systems; conductance and velocity in CGS only *)
Example C70_equivalent_case : exists a b, quantity_or (fun _ _ => None) 9 [Mks; Cgs] (s "energy") (s "work") = Ok a /\ a = true /\
  quantity_or (fun _ _ => None) 9 [Cgs] (s "conductance") (s "velocity") = Ok true /\ quantity_or (fun _ _ => None) 9 [Cgs; Mks] (s "conductance") (s "velocity") = Ok b /\ b = false.
Proof. exists true, false. repeat split; vm_compute; reflexivity. Qed.
