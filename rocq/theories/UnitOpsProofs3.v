(** Units over the package's tables: dimensions and sizes of products, quotients and powers *)
From Verif Require Import PyBase PyLemmas SymbolicModel SymbolicSpec SymbolicProofs SymbolicRegex SymbolicParse SymbolicTotal SymbolicRoundTrip SymbolicAlgebra ContainerModel ContainerSpec ContainerProofs ContainerProofs2 AliasedModel MetricModel MetricSpec MetricTables MetricSizes MetricProofs MetricProofs2 UnitModel UnitOpsModel UnitOpsSpec UnitOpsProofs UnitOpsProofs2 UnitOpsTables.

Definition gooddim (u : str) : Prop := forall n, named_unit u = Some n -> lx n = false.
Section Link.
Set Default Proof Using "Type".
Variable libm : Qc -> Qc -> option Qc.
Variable order : list system.
Hypothesis O : order = [Mks; Cgs] \/ order = [Cgs; Mks].

Lemma of_entries (f : nunit -> bool) : forallb (fun e : list str * nunit => f (snd e)) NAMED = true -> forall u n, named_unit u = Some n -> f n = true.
Proof. intros H u n Hn. destruct (named_entry u n Hn) as (g & Hg). exact (proj1 (forallb_forall _ _) H _ Hg). Qed.
Lemma in_systems y : In y [Mks; Cgs].
Proof. destruct y; cbn; auto. Qed.
Lemma dim_at_ok y u n : named_unit u = Some n -> lx n = false -> exists e, dim_at libm y n = Ok e /\ dim_ok e = true.
Proof.
  intros H E. pose proof (of_entries (dim_check libm) (dim_checks libm) u n H) as K. unfold dim_check in K. rewrite E in K. cbn [orb] in K.
  pose proof (proj1 (forallb_forall _ _) K y (in_systems y)) as Q. cbv beta in Q. destruct dim_at as [e|]; [|discriminate]. exists e. auto.
Qed.
Lemma mono_expo_none x e : (forall t, In t e -> base t <> x) -> mono_expo x e = 0%Qc.
Proof.
  induction e as [|t e IH]; intros H; [reflexivity|]. cbn [mono_expo fold_right]. fold (mono_expo x e). rewrite IH by (intros; apply H; right; assumption).
  rewrite (proj2 (str_eqb_neq _ _) (H t (or_introl eq_refl))). reflexivity.
Qed.
Lemma dim_val_none y x u : x <> one_base -> ~ In x DIMS -> gooddim u -> dim_val libm y x u = 0%Qc.
Proof.
  intros X N G. unfold dim_val. destruct (named_unit u) as [n|] eqn:E; [|reflexivity].
  destruct (dim_at_ok y u n E (G n E)) as (e & -> & K). apply mono_expo_none. intros t Ht Eb.
  unfold dim_ok in K. apply andb_true_iff in K as (K & _). apply andb_true_iff in K as (K & _). apply andb_true_iff in K as (_ & K). pose proof (proj1 (forallb_forall _ _) K t Ht) as Q. cbv beta in Q.
  apply orb_true_iff in Q as [Q|Q]; [apply str_eqb_eq in Q; congruence|]. apply (mem_spec str_eqb str_decides) in Q. congruence.
Qed.
Lemma compound_zero (v : str -> Qc) ts : Forall (fun t => v (base t) = 0%Qc) ts -> compound (S := expos) v ts = 0%Qc.
Proof. induction 1 as [|t ts H _ IH]; [reflexivity|]. cbn in *. rewrite H, IH. ring. Qed.
Definition dec_check' := of_entries (dec_check libm order) (dec_checks libm order O).
Lemma one_known : known named_unit one_base.
Proof. eexists. split; vm_compute; reflexivity. Qed.
Lemma one_size : consistent one_base.
Proof. intros n H. vm_compute in H. injection H as <-. intros I. apply (mem_spec str_eqb str_decides) in I. vm_compute in I. discriminate. Qed.
Lemma consistent_dim u : consistent u -> gooddim u.
Proof. intros C n H. destruct (lx n) eqn:E; [|reflexivity]. exfalso. apply (C n H). unfold lx in E. apply str_eqb_eq in E. rewrite E. apply (mem_spec str_eqb str_decides). reflexivity. Qed.
Definition one_dim : gooddim one_base := consistent_dim _ one_size.
Lemma fine_dim t : known_check t = true -> fine named_unit gooddim (base t).
Proof. intros H. destruct (known_check_ok t H). split; [assumption|]. apply consistent_dim. assumption. Qed.
Lemma fine_size t : known_check t = true -> fine named_unit consistent (base t).
Proof. intros H. destruct (known_check_ok t H). split; assumption. Qed.
Lemma dim_val_one y x : x <> one_base -> dim_val libm y x one_base = 0%Qc.
Proof.
  intros X. destruct (in_dec str_eq_dec x DIMS) as [I|I].
  - cbn [In DIMS] in I. destruct y; repeat destruct I as [<-|I]; try contradiction; vm_compute; reflexivity.
  - apply dim_val_none; try assumption. intros n H. vm_compute in H. injection H as <-. vm_compute. reflexivity.
Qed.
Definition dimdec_good (ts : list operand) : Prop := Forall (fun t => gooddim (base t)) ts.
Lemma respects_dim y x : x <> one_base -> In x DIMS -> respects expos (dim_val libm y x) libm named_unit order quantity_unit quantity_dim gooddim.
Proof using O.
  intros X I. constructor.
  - exact (dim_val_one y x X).
  - exact (conj one_known one_dim).
  - intros u n G Hn. pose proof (dec_check' u n Hn) as K. unfold dec_check in K. destruct nu_decomposed as [[ts|]|e].
    + apply andb_true_iff in K as (K & K4). apply andb_true_iff in K as (K & K3). apply andb_true_iff in K as (K1 & K2). split; [destruct ts; [discriminate|congruence]|].
      split; [apply Forall_forall; intros t Ht; apply plain_check_ok; exact (proj1 (forallb_forall _ _) K2 t Ht)|].
      split; [apply Forall_forall; intros t Ht; apply fine_dim; exact (proj1 (forallb_forall _ _) K3 t Ht)|].
      pose proof (proj1 (forallb_forall _ _) K4 y (in_systems y)) as K5. cbv beta in K5. pose proof (proj1 (forallb_forall _ _) K5 x I) as K6. cbv beta in K6.
      apply qc_eqb_eq in K6. rewrite K6. unfold dim_val. rewrite Hn. reflexivity.
    + exact Logic.I.
    + rewrite (G n Hn) in K. discriminate.
Qed.
(** outside the base dimensions everything is zero *)
Lemma respects_none x : x <> one_base -> ~ In x DIMS -> respects expos (fun _ => 0%Qc) libm named_unit order quantity_unit quantity_dim gooddim.
Proof using O.
  intros X I. constructor.
  - reflexivity.
  - exact (conj one_known one_dim).
  - intros u n G Hn. pose proof (dec_check' u n Hn) as K. unfold dec_check in K. destruct nu_decomposed as [[ts|]|e].
    + apply andb_true_iff in K as (K & K4). apply andb_true_iff in K as (K & K3). apply andb_true_iff in K as (K1 & K2). split; [destruct ts; [discriminate|congruence]|].
      split; [apply Forall_forall; intros t Ht; apply plain_check_ok; exact (proj1 (forallb_forall _ _) K2 t Ht)|].
      split; [apply Forall_forall; intros t Ht; apply fine_dim; exact (proj1 (forallb_forall _ _) K3 t Ht)|].
      apply compound_zero. apply Forall_forall. reflexivity.
    + exact Logic.I.
    + rewrite (G n Hn) in K. discriminate.
Qed.
Lemma respects_size : respects monos si_size libm named_unit order quantity_unit quantity_dim consistent.
Proof using O.
  constructor.
  - vm_compute. reflexivity.
  - exact (conj one_known one_size).
  - intros u n G Hn. pose proof (dec_check' u n Hn) as K. pose proof (of_entries (fun n => mem str_eqb (b_sym n) inconsistent || size_check libm order n) (size_checks libm order O) u n Hn) as KS. unfold dec_check in K.
    cbv beta in KS. apply orb_true_iff in KS as [KS|KS]; [apply (mem_spec str_eqb str_decides) in KS; destruct (G n Hn KS)|]. unfold size_check in KS.
    destruct nu_decomposed as [[ts|]|e].
    + apply andb_true_iff in K as (K & K4). apply andb_true_iff in K as (K & K3). apply andb_true_iff in K as (K1 & K2). split; [destruct ts; [discriminate|congruence]|].
      split; [apply Forall_forall; intros t Ht; apply plain_check_ok; exact (proj1 (forallb_forall _ _) K2 t Ht)|].
      split; [apply Forall_forall; intros t Ht; apply fine_size; exact (proj1 (forallb_forall _ _) K3 t Ht)|].
      apply mono_eqb_eq in KS. rewrite KS. symmetry. apply si_named, Hn.
    + exact Logic.I.
    + exfalso. apply (G n Hn). unfold lx in K. apply str_eqb_eq in K. rewrite K. apply (mem_spec str_eqb str_decides). reflexivity.
Qed.

(** ** the dimension of a unit *)
Lemma dim_ok_parts e : dim_ok e = true -> e <> [] /\ plain 2 e /\ (forall t, In t e -> (zq (-10) <= expo t)%Qc /\ (expo t <= zq 10)%Qc).
Proof.
  unfold dim_ok. intros K. apply andb_true_iff in K as (K & K4). apply andb_true_iff in K as (K & K3). apply andb_true_iff in K as (K1 & K2). split; [destruct e; [discriminate|congruence]|].
  split; [apply Forall_forall; intros t Ht; apply plain_check_ok; exact (proj1 (forallb_forall _ _) K1 t Ht)|].
  intros t Ht. pose proof (proj1 (forallb_forall _ _) K3 t Ht) as Q. cbv beta in Q. apply andb_true_iff in Q as (Q1 & Q2). split; [destruct (qc_leb_spec (zq (-10)) (expo t)) | destruct (qc_leb_spec (expo t) (zq 10))]; first [assumption | discriminate].
Qed.
Definition dterm (t : operand) : Prop := expo t <> 0%Qc /\ parts 4 (expo t) /\ small (expo t) /\ gooddim (base t) /\ known named_unit (base t).
Lemma term_dim_ok y t : dterm t -> exists d ac, term_dimension libm named_unit quantity_unit quantity_dim y t = Ok (d, ac) /\
  canonical d /\ plain 8 d /\ forall x, x <> one_base -> mono_expo x d = (dim_val libm y x (base t) * expo t)%Qc.
Proof.
  intros (N & P & Sm & G & n & Hn & _). destruct (dim_at_ok y _ n Hn (G n Hn)) as (e & E & K).
  assert (DV : forall x, dim_val libm y x (base t) = mono_expo x e) by (intros x; unfold dim_val; rewrite Hn, E; reflexivity).
  unfold dim_at in E. unfold term_dimension, identify. rewrite Hn. cbn [bind].
  destruct (is_allowed_in named_unit quantity_unit n Mks) as [am|]; cbn [bind] in *; [|discriminate].
  destruct (is_allowed_in named_unit quantity_unit n Cgs) as [ac|]; cbn [bind] in *; [|discriminate].
  destruct nu_dimensions as [d|]; cbn [bind] in *; [|discriminate].
  destruct (if am && ac then d y else if am then d Mks else d Cgs) as [e'|]; [|discriminate]. injection E as ->.
  destruct (dim_ok_parts e K) as (NE & PE & BE).
  destruct (epow_plain libm 2 4 e (expo t)) as (r & -> & RT); try assumption.
  - exists 1%positive. reflexivity.
  - apply small_double; [exact (parts_more 4 2 _ P)|exact Sm].
  - unfold tame. apply Forall_forall. intros u Hu. destruct (BE u Hu) as (B1 & B2). pose proof (proj1 (Forall_forall _ _) PE u Hu) as (_ & _ & _ & Pu & _).
    split; [apply parts_small_double; [exact (parts_more 2 4 _ Pu)|eapply Qcle_trans; [|exact B1]|eapply Qcle_trans; [exact B2|]]; vm_compute; discriminate|].
    rewrite Qcmult_comm. destruct (small_mul (expo t) (expo u) Sm) as (C1 & C2).
    + eapply Qcle_trans; [|exact B1]. vm_compute. discriminate.
    + eapply Qcle_trans; [exact B2|]. vm_compute. discriminate.
    + apply parts_small_double; try assumption. exact (parts_mul 4 2 _ _ P Pu).
  - cbn [bind]. exists r, (am, ac). split; [reflexivity|]. split; [apply RT|]. split; [apply RT|]. intros x X.
    rewrite (rt_expo _ _ _ RT x X), raise_expo, DV. ring.
Qed.
Lemma loop_ok y : forall ts e seen, Forall dterm ts -> canonical e -> plain 8 e ->
  exists d b, dimension_loop libm named_unit quantity_unit quantity_dim y ts e seen = Ok (d, b) /\ canonical d /\ plain 8 d /\
    forall x, x <> one_base -> mono_expo x d = (mono_expo x e + compound (S := expos) (dim_val libm y x) ts)%Qc.
Proof.
  induction ts as [|t ts IH]; intros e seen F C P; cbn [dimension_loop].
  - exists e, seen. split; [reflexivity|]. split; [exact C|]. split; [exact P|]. intros x _. change (compound (S := expos) (dim_val libm y x) []) with 0%Qc. apply eq_sym, Qcplus_0_r.
  - inversion F as [|? ? Ft F']; subst. destruct (term_dim_ok y t Ft) as (d & (am, ac) & -> & Cd & Pd & Xd). cbn [bind].
    destruct (emul_plain libm e d C Cd P Pd) as (r & -> & RT). cbn [bind].
    destruct (IH r (seen || match y with Mks => am | Cgs => ac end) F') as (d' & b & E & C' & P' & X'); [apply RT|apply RT|].
    exists d', b. split; [exact E|]. split; [exact C'|]. split; [exact P'|]. intros x X. rewrite (X' x X), (rt_expo _ _ _ RT x X), mono_expo_app, (Xd x X). change (compound (S := expos) (dim_val libm y x) (t :: ts)) with (dim_val libm y x (base t) * expo t + compound (S := expos) (dim_val libm y x) ts)%Qc. apply eq_sym, Qcplus_assoc.
Qed.
Lemma dimension_ok y ts : Forall dterm ts -> exists od, unit_dimension libm named_unit quantity_unit quantity_dim y ts = Ok od /\
  forall d, od = Some d -> canonical d /\ plain 8 d /\ forall x, x <> one_base -> mono_expo x d = compound (S := expos) (dim_val libm y x) ts.
Proof.
  intros F. unfold unit_dimension. change (s "1") with (format_expression [const_term 1]). rewrite (parse_format libm) by first [apply canonical_one|reflexivity]. cbn [bind].
  destruct (loop_ok y ts [const_term 1] false F) as (d & b & -> & C & P & X).
  - apply canonical_one.
  - constructor; [|constructor]. split; [reflexivity|]. split; [reflexivity|]. split; [discriminate|]. split; [exact (parts_int 8 1)|left; reflexivity].
  - cbn [bind fst snd]. eexists. split; [reflexivity|]. destruct b; [|discriminate]. intros d' [= <-]. split; [exact C|]. split; [exact P|]. intros x Xx. rewrite (X x Xx).
    cbn [mono_expo fold_right const_term base expo]. rewrite (proj2 (str_eqb_neq _ _)) by congruence. apply Qcplus_0_l.
Qed.

(** ** products, quotients and powers *)
Notation mulu := (unit_mul libm named_unit order quantity_unit quantity_dim).
Notation divu := (unit_div libm named_unit order quantity_unit quantity_dim).
Notation dimu := (unit_dimension libm named_unit quantity_unit quantity_dim).
Definition lit (a : list operand) : Prop := unit_of named_unit 2 a /\ Forall (fun t => gooddim (base t)) a.
Lemma lit_terms a : lit a -> Forall dterm a.
Proof.
  intros ((_ & F) & G). rewrite Forall_forall in *. intros t Ht. destruct (F t Ht) as (_ & _ & H3 & H4 & H5 & _ & n & Hn). split; [exact H3|]. split; [exact (parts_more 2 2 _ H4)|].
  split; [exact H5|]. split; [exact (G t Ht)|]. exists n. exact Hn.
Qed.
Lemma proper_terms r : proper named_unit gooddim r -> Forall (fun t => small (expo t)) r -> Forall dterm r.
Proof.
  intros (_ & P & F) Sm. unfold plain in P. rewrite Forall_forall in *. intros t Ht. destruct (P t Ht) as (_ & _ & H3 & H4 & _). destruct (F t Ht) as (K & G).
  split; [exact H3|]. split; [exact H4|]. split; [exact (Sm t Ht)|]. auto.
Qed.
(** a value that depends on the terms only through every base dimension *)
Lemma by_dims (P : str -> Prop) : (forall x, x <> one_base -> In x DIMS -> P x) -> (forall x, x <> one_base -> ~ In x DIMS -> P x) -> forall x, x <> one_base -> P x.
Proof. intros H K x X. destruct (in_dec str_eq_dec x DIMS); auto. Qed.
Lemma outside y x ts : x <> one_base -> ~ In x DIMS -> Forall (fun t => gooddim (base t)) ts -> compound (S := expos) (dim_val libm y x) ts = 0%Qc.
Proof. intros X I G. apply compound_zero. eapply Forall_impl; [|exact G]. intros t Gt. apply dim_val_none; assumption. Qed.
Lemma proper_good r : proper named_unit gooddim r -> Forall (fun t => gooddim (base t)) r.
Proof. intros (_ & _ & F). eapply Forall_impl; [|exact F]. intros t (_ & G). exact G. Qed.
Lemma plain_coef8 d : plain 8 d -> mono_coef d = 1%Qc.
Proof. apply plain_coef. Qed.

Lemma known_dim y a da : lit a -> dimu y a = Ok (Some da) -> canonical da /\ mono_coef da = 1%Qc /\ forall x, x <> one_base -> mono_expo x da = compound (S := expos) (dim_val libm y x) a.
Proof.
  intros A E. destruct (dimension_ok y a (lit_terms a A)) as (od & E' & H). rewrite E in E'. injection E' as <-. destruct (H da eq_refl) as (C & P & X). split; [exact C|]. split; [apply (plain_coef 8), P|exact X].
Qed.
Section One.
Variables (r : list operand) (y : system).
Hypothesis PR : proper named_unit gooddim r.
Lemma result_dim : Forall (fun t => small (expo t)) r -> exists od, dimu y r = Ok od /\ forall dr, od = Some dr ->
  canonical dr /\ mono_coef dr = 1%Qc /\ forall x, x <> one_base -> mono_expo x dr = compound (S := expos) (dim_val libm y x) r.
Proof using PR.
  intros Sm. destruct (dimension_ok y r (proper_terms r PR Sm)) as (od & E & H). exists od. split; [exact E|]. intros dr Ed. destruct (H dr Ed) as (C & P & X).
  split; [exact C|]. split; [apply (plain_coef 8), P|exact X].
Qed.
End One.
Theorem product_dim y a b da db : lit a -> lit b -> dimu y a = Ok (Some da) -> dimu y b = Ok (Some db) ->
  exists r, mulu a b = Ok r /\ canonical r /\ (Forall (fun t => small (expo t)) r -> exists od, dimu y r = Ok od /\ forall dr, od = Some dr -> is_product dr da db).
Proof using O.
  intros A B Ea Eb. destruct (known_dim y a da A Ea) as (Ca & Ma & Xa). destruct (known_dim y b db B Eb) as (Cb & Mb & Xb).
  assert (I0 : In (s "M") DIMS) by (left; reflexivity). assert (N0 : s "M" <> one_base) by discriminate.
  destruct (mul_value expos expos_laws _ _ _ _ _ _ _ (respects_dim y (s "M") N0 I0) a b A B) as (r & E & PR & _).
  exists r. split; [exact E|]. split; [apply PR|]. intros Sm. destruct (result_dim r y PR Sm) as (od & Ed & H). exists od. split; [exact Ed|]. intros dr Hd. destruct (H dr Hd) as (C & M & X).
  split; [exact C|]. split; [rewrite M, Ma, Mb; reflexivity|]. apply by_dims; intros x Nx Ix; rewrite (X x Nx), (Xa x Nx), (Xb x Nx).
  - destruct (mul_value expos expos_laws _ _ _ _ _ _ _ (respects_dim y x Nx Ix) a b A B) as (r' & E' & _ & V). rewrite E in E'. injection E' as <-. exact V.
  - rewrite !(outside y x) by first [assumption | apply A | apply B | apply proper_good, PR]. reflexivity.
Qed.
Theorem quotient_dim y a b da db : lit a -> lit b -> dimu y a = Ok (Some da) -> dimu y b = Ok (Some db) ->
  exists r, divu a b = Ok r /\ canonical r /\ (Forall (fun t => small (expo t)) r -> exists od, dimu y r = Ok od /\ forall dr, od = Some dr -> is_quotient dr da db).
Proof using O.
  intros A B Ea Eb. destruct (known_dim y a da A Ea) as (Ca & Ma & Xa). destruct (known_dim y b db B Eb) as (Cb & Mb & Xb).
  assert (I0 : In (s "M") DIMS) by (left; reflexivity). assert (N0 : s "M" <> one_base) by discriminate.
  destruct (div_value expos expos_laws _ _ _ _ _ _ _ (respects_dim y (s "M") N0 I0) a b A B) as (r & E & PR & _).
  exists r. split; [exact E|]. split; [apply PR|]. intros Sm. destruct (result_dim r y PR Sm) as (od & Ed & H). exists od. split; [exact Ed|]. intros dr Hd. destruct (H dr Hd) as (C & M & X).
  split; [exact C|]. split; [rewrite M, Ma, Mb; reflexivity|]. apply by_dims; intros x Nx Ix; rewrite (X x Nx), (Xa x Nx), (Xb x Nx).
  - destruct (div_value expos expos_laws _ _ _ _ _ _ _ (respects_dim y x Nx Ix) a b A B) as (r' & E' & _ & V). rewrite E in E'. injection E' as <-. exact V.
  - rewrite !(outside y x) by first [assumption | apply A | apply B | apply proper_good, PR]. reflexivity.
Qed.
Theorem power_dim y a da p q : lit a -> dimu y a = Ok (Some da) -> p = Exact q \/ p = Float q -> q <> 0%Qc -> parts 2 q -> (zq (-100) <= q)%Qc -> (q <= zq 100)%Qc ->
  exists r, unit_pow libm named_unit a p = Ok r /\ canonical r /\ (Forall (fun t => small (expo t)) r -> exists od, dimu y r = Ok od /\ forall dr, od = Some dr -> is_power dr da q).
Proof using O.
  intros A Ea Hp Nq Pq B1 B2. destruct (known_dim y a da A Ea) as (Ca & Ma & Xa).
  assert (I0 : In (s "M") DIMS) by (left; reflexivity). assert (N0 : s "M" <> one_base) by discriminate.
  destruct (pow_value expos expos_laws _ _ _ _ _ _ _ (respects_dim y (s "M") N0 I0) a p q A Hp Nq Pq B1 B2) as (r & E & PR & _).
  exists r. split; [exact E|]. split; [apply PR|]. intros Sm. destruct (result_dim r y PR Sm) as (od & Ed & H). exists od. split; [exact Ed|]. intros dr Hd. destruct (H dr Hd) as (C & M & X).
  split; [exact C|]. split; [exact M|]. apply by_dims; intros x Nx Ix; rewrite (X x Nx), (Xa x Nx).
  - destruct (pow_value expos expos_laws _ _ _ _ _ _ _ (respects_dim y x Nx Ix) a p q A Hp Nq Pq B1 B2) as (r' & E' & _ & V). rewrite E in E'. injection E' as <-.
    rewrite V. apply Qcmult_comm.
  - rewrite !(outside y x) by first [assumption | apply A | apply proper_good, PR]. ring.
Qed.
Lemma proper_lit a : proper_unit [s "lx"] a -> lit a.
Proof.
  intros (U & F). split; [exact U|]. eapply Forall_impl; [|exact F]. intros t H n Hn. destruct (lx n) eqn:E; [|reflexivity]. destruct (H n Hn). left. symmetry. apply str_eqb_eq. exact E.
Qed.
Theorem equal_dim y a b da db : lit a -> lit b -> eeq a b = true -> dimu y a = Ok (Some da) -> dimu y b = Ok (Some db) ->
  mono_coef da = mono_coef db /\ forall x, x <> one_base -> mono_expo x da = mono_expo x db.
Proof.
  intros A B E Ea Eb. destruct (known_dim y a da A Ea) as (Ca & Ma & Xa). destruct (known_dim y b db B Eb) as (Cb & Mb & Xb). split; [congruence|].
  intros x X. rewrite (Xa x X), (Xb x X). apply (cmp_eeq expos expos_laws); [eapply okay_doubles, A|eapply okay_doubles, B|exact E].
Qed.
Theorem dim_total y a : lit a -> exists od, dimu y a = Ok od /\ forall d, od = Some d -> canonical d.
Proof. intros A. destruct (dimension_ok y a (lit_terms a A)) as (od & E & H). exists od. split; [exact E|]. intros d Hd. apply (H d Hd). Qed.
End Link.
