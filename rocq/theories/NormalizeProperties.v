(** * C69: the normal form of a unit in a metric system *)
From Verif Require Import PyBase PyLemmas SymbolicModel SymbolicSpec SymbolicProofs SymbolicRegex SymbolicParse SymbolicTotal SymbolicRoundTrip SymbolicAlgebra ContainerModel ContainerSpec ContainerProofs ContainerProofs2 AliasedModel MetricModel MetricSpec MetricTables MetricSizes MetricProofs MetricProofs2 UnitModel UnitOpsModel UnitOpsSpec UnitOpsProofs UnitOpsProofs2 UnitOpsTables UnitOpsProofs3 NormalizeModel NormalizeSpec NormalizeProofs NormalizeProofs2.

Section C69.
Set Default Proof Using "Type".
Variable libm : Qc -> Qc -> option Qc.
(** the recursion limit of the interpreter *)
Variable limit : nat.
Hypothesis deep : 8 <= limit.
Notation normal := (normalize libm limit).
Notation dimension_in y u := (unit_dimension libm named_unit quantity_unit quantity_dim y u).
Notation moderate r := (Forall (fun t => small (expo t)) r).

Lemma proper_terms ts : proper_unit [s "lx"] ts -> ts <> [] /\ Forall proper_term ts.
Proof. intros ((N & F) & G). split; [exact N|]. apply Forall_forall. intros t Ht. split; [exact (proj1 (Forall_forall _ _) F t Ht)|exact (proj1 (Forall_forall _ _) G t Ht)]. Qed.
Lemma symbol_coherent y b : In b (symbols y) -> (forall x, In x (symbols y) -> coherent y (measured b) x = if str_eqb b x then 1%Qc else 0%Qc) /\ In (measured b) QS /\ is_symbol b = true /\ sqrt_prefix b = false.
Proof.
  intros I. pose proof (proj1 (forallb_forall _ _) self_checks y (in_systems y)) as K. pose proof (proj1 (forallb_forall _ _) K b I) as K'. unfold self_check in K'.
  apply andb_true_iff in K' as (K' & K4). apply andb_true_iff in K' as (K' & K3). apply andb_true_iff in K' as (K1 & K2). split; [|split; [apply (mem_spec str_eqb str_decides), K2|split; [exact K3|apply negb_true_iff, K4]]].
  intros x Hx. pose proof (proj1 (forallb_forall _ _) K1 x Hx) as E. apply qc_eqb_eq in E. exact E.
Qed.
Lemma symbol_named y b : b = one_base \/ In b (symbols y) -> exists n, named_unit b = Some n /\ n_symbol n = b /\ lx n = false /\ is_allowed_in named_unit quantity_unit n y = Ok true.
Proof.
  intros I. assert (I' : In b (one_base :: symbols y)) by (destruct I as [<-|I]; [left; reflexivity|right; exact I]).
  pose proof (proj1 (forallb_forall _ _) symbol_checks y (in_systems y)) as K. pose proof (proj1 (forallb_forall _ _) K b I') as K'. unfold allowed_check in K'.
  destruct (named_unit b) as [n|]; [|discriminate]. exists n. apply andb_true_iff in K' as (K' & K3). apply andb_true_iff in K' as (K1 & K2). apply str_eqb_eq in K1. apply negb_true_iff in K2.
  destruct is_allowed_in as [[|]|]; try discriminate K3. auto.
Qed.

(** Unless the quantities of its terms cancel, a unit has a normal form in each
    system: the product of the canonical units of the quantities of its terms,
    each to the power of that term. *)
Theorem C69_normal_form y ts : proper_unit [s "lx"] ts -> (forall q, small (total_power q ts)) -> (exists q, total_power q ts <> 0%Qc) ->
  exists r, normal y ts = Ok r /\ canonical r /\ (forall t, In t r -> base t = one_base \/ coherent y (measured (base t)) (base t) = 1%Qc) /\
    forall x, x <> one_base -> mono_expo x r = replaced y x ts.
Proof using deep.
  intros P C N. destruct (proper_terms ts P) as (NE & F). destruct (normalize_ok libm limit deep y ts NE F C N) as (r & E & Cr & _ & B & X).
  exists r. split; [exact E|]. split; [exact Cr|]. split; [|exact X]. intros t Ht. destruct (B t Ht) as [Bt|Bt]; [left; exact Bt|right].
  rewrite (proj1 (symbol_coherent y _ Bt) _ Bt), str_eqb_refl. reflexivity.
Qed.

(** The normal form depends on the quantities alone: units of the same quantity
    have the same normal form. *)
Lemma replaced_totals y x ts : Forall proper_term ts -> replaced y x ts = compound (S := expos) (fun b => coherent y (underscores_to_blanks b) x) (map qterm ts).
Proof. intros F. destruct (replaced_compound y x ts) as [E|E]; [exact E|contradiction]. Qed.
Theorem C69_same_quantity y a b : proper_unit [s "lx"] a -> proper_unit [s "lx"] b -> (forall q, total_power q a = total_power q b) ->
  (forall q, small (total_power q a)) -> normal y a = normal y b.
Proof using deep.
  intros PA PB T C. destruct (proper_terms a PA) as (NA & FA). destruct (proper_terms b PB) as (NB & FB).
  assert (Cb : forall q, small (total_power q b)) by (intros q; rewrite <- T; apply C).
  assert (D : noncancelling a \/ ~ noncancelling a).
  { destruct (existsb (fun q => negb (qc_eqb (total_power q a) 0)) QS) eqn:E.
    - left. apply existsb_exists in E as (q & _ & H). exists q. intros Z. rewrite Z in H. discriminate.
    - right. intros (q & H). destruct (in_dec str_eq_dec q QS) as [I|I]; [|apply H, total_unmeasured; assumption].
      assert (K : existsb (fun q => negb (qc_eqb (total_power q a) 0)) QS = true); [|congruence]. apply existsb_exists. exists q. split; [exact I|]. rewrite (proj2 (qc_eqb_neq _ _) H). reflexivity. }
  destruct D as [D|D].
  - destruct (normalize_ok libm limit deep y a NA FA C D) as (r & -> & Cr & Pr & _ & X).
    destruct (normalize_ok libm limit deep y b NB FB Cb) as (r' & -> & Cr' & Pr' & _ & X'); [destruct D as (q & D); exists q; rewrite <- T; exact D|].
    f_equal. apply canonical_eq; [exact Cr|exact Cr'|]. split; [rewrite (plain_coef 8 r Pr), (plain_coef 8 r' Pr'); reflexivity|].
    intros x Hx. rewrite (X x Hx), (X' x Hx), (replaced_totals y x a FA), (replaced_totals y x b FB).
    apply (compound_same expos expos_laws); [destruct y; reflexivity|]. intros z Hz.
    destruct (in_dec str_eq_dec (underscores_to_blanks z) QS) as [I|I].
    + destruct (str_eq_dec (blanks_to_underscores (underscores_to_blanks z)) z) as [E|E].
      * rewrite <- E, (total_qterm _ a I FA), (total_qterm _ b I FB). apply T.
      * assert (Ab : forall ts, Forall proper_term ts -> mono_expo z (map qterm ts) = 0%Qc); [|rewrite !Ab by assumption; reflexivity].
        intros ts Ft. apply mono_expo_absent. intros t Ht Ez. apply in_map_iff in Ht as (w & <- & Hw). cbn [qterm base] in Ez. apply E. rewrite <- Ez.
        rewrite (proj1 (name_ok _ (measured_in w (proj1 (Forall_forall _ _) Ft w Hw)))). reflexivity.
    + assert (Ab : forall ts, Forall proper_term ts -> mono_expo z (map qterm ts) = 0%Qc); [|rewrite !Ab by assumption; reflexivity].
      intros ts Ft. apply mono_expo_absent. intros t Ht Ez. apply in_map_iff in Ht as (w & <- & Hw). cbn [qterm base] in Ez. apply I. rewrite <- Ez.
      rewrite (proj1 (name_ok _ (measured_in w (proj1 (Forall_forall _ _) Ft w Hw)))). exact (measured_in w (proj1 (Forall_forall _ _) Ft w Hw)).
  - rewrite (normalize_cancelling libm limit y a NA FA D), (normalize_cancelling libm limit y b NB FB); [reflexivity|]. intros (q & H). apply D. exists q. rewrite T. exact H.
Qed.

(** A normal form is its own normal form. *)
Lemma replaced_self y x r : x <> one_base -> (forall t, In t r -> base t = one_base \/ In (base t) (symbols y)) -> replaced y x r = mono_expo x r.
Proof.
  intros X. induction r as [|t r IH]; intros B; [reflexivity|]. cbn [replaced mono_expo fold_right]. fold (replaced y x r) (mono_expo x r). rewrite IH by (intros; apply B; right; assumption).
  destruct (B t (or_introl eq_refl)) as [E|E].
  - rewrite E. replace (coherent y (measured one_base) x) with 0%Qc by (destruct y; reflexivity). rewrite (proj2 (str_eqb_neq _ _)) by congruence. ring.
  - destruct (in_dec str_eq_dec x (symbols y)) as [I|I].
    + rewrite (proj1 (symbol_coherent y _ E) x I). destruct (str_eqb (base t) x); ring.
    + rewrite (coherent_absent y _ x I), (proj2 (str_eqb_neq _ _)) by congruence. ring.
Qed.
Lemma parts_replaced y x ts : Forall proper_term ts -> parts 2 (replaced y x ts).
Proof.
  induction 1 as [|t ts P _ IH]; [exact (parts_zero 2)|]. cbn [replaced fold_right]. fold (replaced y x ts). apply parts_add; [|exact IH].
  destruct P as ((_ & _ & _ & P & _) & _). exact (parts_mul 2 1 _ _ P (parts_int 1 _)).
Qed.
Lemma normal_proper y ts r : Forall proper_term ts -> canonical r -> plain 8 r -> (forall t, In t r -> base t = one_base \/ In (base t) (symbols y)) ->
  (forall x, x <> one_base -> mono_expo x r = replaced y x ts) -> moderate r -> r <> [] /\ Forall proper_term r.
Proof.
  intros F C P B X M. destruct (canonical_ok r C) as [NE _]. split; [exact NE|]. apply Forall_forall. intros t Ht.
  pose proof (proj1 (Forall_forall _ _) P t Ht) as (H1 & H2 & H3 & _ & H5). destruct (symbol_named y (base t) (B t Ht)) as (n & Hn & En & Ln & _).
  split; [|intros m Hm [E|[]]; rewrite Hn in Hm; injection Hm as <-; unfold lx in Ln; rewrite <- E, str_eqb_refl in Ln; discriminate].
  split; [exact H1|]. split; [exact H2|]. split; [exact H3|]. split; [|split; [exact (proj1 (Forall_forall _ _) M t Ht)|split; [exact H5|exists n; auto]]].
  destruct (str_eq_dec (base t) one_base) as [E|E].
  - destruct (canonical_cases r C (plain_coef 8 r P)) as [->|K]; [destruct Ht as [<-|[]]; exact (parts_int 2 1)|destruct (K t Ht E)].
  - rewrite <- (in_reduced_expo r t C Ht E), (X _ E). apply parts_replaced, F.
Qed.
Theorem C69_idempotent y ts r : proper_unit [s "lx"] ts -> (forall q, small (total_power q ts)) -> normal y ts = Ok r -> moderate r -> normal y r = Ok r.
Proof using deep.
  intros P C E M. destruct (proper_terms ts P) as (NE & F).
  assert (N : noncancelling ts).
  { destruct (existsb (fun q => negb (qc_eqb (total_power q ts) 0)) QS) eqn:K.
    - apply existsb_exists in K as (q & _ & H). exists q. intros Z. rewrite Z in H. discriminate.
    - exfalso. rewrite (normalize_cancelling libm limit y ts NE F) in E; [discriminate|]. intros (q & H). destruct (in_dec str_eq_dec q QS) as [I|I]; [|apply H, total_unmeasured; assumption].
      assert (K' : existsb (fun q => negb (qc_eqb (total_power q ts) 0)) QS = true); [|congruence]. apply existsb_exists. exists q. split; [exact I|]. rewrite (proj2 (qc_eqb_neq _ _) H). reflexivity. }
  destruct (normalize_ok libm limit deep y ts NE F C N) as (r' & E' & Cr & Pr & B & X). rewrite E in E'. injection E' as <-.
  destruct (normal_proper y ts r F Cr Pr B X M) as (NR & FR).
  (* each quantity has one symbol in a system *)
  assert (T : forall t, In t r -> base t <> one_base -> total_power (measured (base t)) r = expo t).
  { intros t Ht Bt. rewrite <- (in_reduced_expo r t Cr Ht Bt). clear - B Bt Ht. assert (I : In (base t) (symbols y)) by (destruct (B t Ht); [contradiction|assumption]). clear Ht.
    induction r as [|w r IH]; [reflexivity|]. cbn [total_power mono_expo fold_right]. fold (total_power (measured (base t)) r) (mono_expo (base t) r). rewrite IH by (intros; apply B; right; assumption).
    replace (str_eqb (measured (base w)) (measured (base t))) with (str_eqb (base w) (base t)); [reflexivity|].
    destruct (str_eqb_spec (base w) (base t)) as [E|E]; [rewrite E, str_eqb_refl; reflexivity|]. symmetry. apply str_eqb_neq. intros Q.
    destruct (symbol_coherent y _ I) as (K & _). pose proof (K _ I) as K1. rewrite str_eqb_refl, <- Q in K1. destruct (B w (or_introl eq_refl)) as [O|O].
    - rewrite O in K1. replace (coherent y (measured one_base) (base t)) with 0%Qc in K1 by (destruct y; reflexivity). discriminate.
    - rewrite (proj1 (symbol_coherent y _ O) _ I), (proj2 (str_eqb_neq _ _) E) in K1. discriminate. }
  assert (TM : forall q, total_power q r = 0%Qc \/ exists t, In t r /\ total_power q r = expo t).
  { intros q. destruct (canonical_cases r Cr (plain_coef 8 r Pr)) as [->|K].
    - destruct (str_eq_dec (s "identity") q) as [<-|Q]; [right; eexists; split; [left; reflexivity|]; vm_compute; reflexivity|left].
      cbn [total_power fold_right]. rewrite (proj2 (str_eqb_neq _ _)); [reflexivity|exact Q].
    - destruct (existsb (fun t => str_eqb (measured (base t)) q) r) eqn:Z.
      + apply existsb_exists in Z as (t & Ht & Q). apply str_eqb_eq in Q. right. exists t. split; [exact Ht|]. rewrite <- Q. apply T; [exact Ht|apply K, Ht].
      + left. clear - Z. induction r as [|w r IH]; [reflexivity|]. cbn [existsb] in Z. apply orb_false_iff in Z as (Z1 & Z2). cbn [total_power fold_right]. fold (total_power q r). rewrite Z1. apply IH, Z2. }
  destruct (normalize_ok libm limit deep y r NR FR) as (r' & -> & Cr' & Pr' & _ & X').
  - intros q. destruct (TM q) as [->|(t & Ht & ->)]; [split; vm_compute; discriminate|exact (proj1 (Forall_forall _ _) M t Ht)].
  - destruct (canonical_cases r Cr (plain_coef 8 r Pr)) as [->|K]; [exists (s "identity"); vm_compute; discriminate|].
    destruct r as [|t r]; [congruence|]. exists (measured (base t)). rewrite (T t (or_introl eq_refl) (K t (or_introl eq_refl))).
    pose proof (proj1 (Forall_forall _ _) Pr t (or_introl eq_refl)) as (_ & _ & H3 & _). exact H3.
  - f_equal. apply canonical_eq; [exact Cr'|exact Cr|]. split; [rewrite (plain_coef 8 r Pr), (plain_coef 8 r' Pr'); reflexivity|].
    intros x Hx. rewrite (X' x Hx). apply replaced_self; assumption.
Qed.

(** A unit all of whose terms are allowed in a system has the same dimension in
    that system as its normal form. *)
Definition usable (y : system) (u : str) : Prop := exists n, named_unit u = Some n /\ is_allowed_in named_unit quantity_unit n y = Ok true.
Lemma usable_dim y u n : named_unit u = Some n -> is_allowed_in named_unit quantity_unit n y = Ok true -> In (b_quantity n) QS ->
  forall x, In x DIMS -> dim_val libm y x u = coherent_dim libm y (b_quantity n) x.
Proof.
  intros Hn Al Q x Hx. pose proof (checked (dims_check libm) QS y _ (dims_checks libm) Q) as K. unfold dims_check in K.
  unfold dim_val. rewrite Hn. unfold dim_at, is_allowed_in in *. unfold nu_dimensions.
  destruct (is_defined_in named_unit quantity_unit n Mks) as [m|]; cbn [bind] in *; [|discriminate].
  destruct (is_defined_in named_unit quantity_unit n Cgs) as [c|]; cbn [bind] in *; [|discriminate].
  assert (Ks : forall y, exists e, quantity_dim (b_quantity n) y = Some e /\ exists d, dim_of_str libm (Some e) = Ok (Some d) /\ forall x, In x DIMS -> mono_expo x d = coherent_dim libm y (b_quantity n) x).
  { clear - Q. intros y. pose proof (checked (dims_check libm) QS y _ (dims_checks libm) Q) as K. unfold dims_check in K. destruct (quantity_dim (b_quantity n) y) as [e|]; [|discriminate]. exists e. split; [reflexivity|].
    destruct (dim_of_str libm (Some e)) as [[d|]|]; try discriminate. exists d. split; [reflexivity|]. intros x Hx. pose proof (proj1 (forallb_forall _ _) K x Hx) as E. apply qc_eqb_eq in E. exact E. }
  destruct (Ks Mks) as (em & Em & dm & Dm & Xm). destruct (Ks Cgs) as (ec & Ec & dc & Dc & Xc). rewrite Em, Ec. clear K Ks.
  destruct m, c, y; cbn [orb andb negb system_eqb bind] in Al |- *; try discriminate Al; rewrite ?Dm, ?Dc; cbn [bind dim_of_str]; auto.
Qed.
Lemma seen_keeps y : forall ts e, Forall dterm ts -> canonical e -> plain 8 e -> exists d, dimension_loop libm named_unit quantity_unit quantity_dim y ts e true = Ok (d, true).
Proof.
  induction ts as [|t ts IH]; intros e F C P; [exists e; reflexivity|]. cbn [dimension_loop]. inversion F as [|? ? Ft F']; subst.
  destruct (term_dim_ok libm y t Ft) as (d & (am, ac) & -> & Cd & Pd & _). cbn [bind]. destruct (emul_plain libm e d C Cd P Pd) as (r & -> & RT). cbn [bind orb]. apply IH; [exact F'|apply RT|apply RT].
Qed.
Lemma has_dimension y ts : ts <> [] -> Forall dterm ts -> (forall t, In t ts -> usable y (base t)) ->
  exists d, dimension_in y ts = Ok (Some d) /\ canonical d /\ plain 8 d /\ forall x, x <> one_base -> mono_expo x d = compound (S := expos) (dim_val libm y x) ts.
Proof.
  intros N F U. destruct (dimension_ok libm y ts F) as (od & E & D).
  assert (K : exists d, od = Some d); [|destruct K as (d & ->); exists d; split; [exact E|exact (D d eq_refl)]].
  revert E. unfold unit_dimension. change (s "1") with (format_expression [const_term 1]). rewrite (parse_format libm) by first [apply canonical_one|reflexivity]. cbn [bind].
  destruct ts as [|t ts]; [congruence|]. inversion F as [|? ? Ft F']; subst. cbn [dimension_loop].
  destruct (term_dim_ok libm y t Ft) as (d & (am, ac) & Ed & Cd & Pd & _). destruct (U t (or_introl eq_refl)) as (n & Hn & Al).
  assert (Sn : match y with Mks => am | Cgs => ac end = true).
  { clear - Ed Hn Al. unfold term_dimension, identify in Ed. rewrite Hn in Ed. cbn [bind] in Ed.
    destruct (is_allowed_in named_unit quantity_unit n Mks) as [bm|] eqn:Bm; cbn [bind] in Ed; [|discriminate Ed].
    destruct (is_allowed_in named_unit quantity_unit n Cgs) as [bc|] eqn:Bc; cbn [bind] in Ed; [|discriminate Ed].
    destruct nu_dimensions as [dd|]; cbn [bind] in Ed; [|discriminate Ed]. destruct (if bm && bc then dd y else if bm then dd Mks else dd Cgs) as [e|]; [|discriminate Ed].
    destruct (epow libm e (expo t)) as [p|]; cbn [bind] in Ed; [|discriminate Ed]. injection Ed as _ <- <-. destruct y; congruence. }
  rewrite Ed. cbn [bind]. rewrite Sn. destruct (emul_plain libm [const_term 1] d (canonical_one) Cd) as (r & -> & RT); [|exact Pd|].
  { constructor; [|constructor]. split; [reflexivity|]. split; [reflexivity|]. split; [discriminate|]. split; [exact (parts_int 8 1)|left; reflexivity]. }
  cbn [bind orb]. destruct (seen_keeps y ts r F') as (d' & ->); [apply RT|apply RT|]. cbn [bind snd fst]. intros [= <-]. exists d'. reflexivity.
Qed.
Lemma proper_dterm t : proper_term t -> dterm t.
Proof.
  intros ((_ & _ & H3 & H4 & H5 & _ & n & Hn & En) & O). split; [exact H3|]. split; [exact (parts_more 2 2 _ H4)|]. split; [exact H5|]. split; [|exists n; auto].
  intros m Hm. exact (not_lx _ _ O Hm).
Qed.
(** what the dimension of [replaced] is *)
Definition expanded (y : system) (ts : list operand) : list operand :=
  flat_map (fun t => map (fun be => {| coef := 1; base := fst be; expo := (zq (snd be) * expo t)%Qc; isterm := true |}) (entry COHERENT (measured (base t)) y)) ts.
Lemma expanded_one l e x : mono_expo x (map (fun be : str * Z => {| coef := 1; base := fst be; expo := (zq (snd be) * e)%Qc; isterm := true |}) l) = (e * zq (power_of l x))%Qc.
Proof.
  induction l as [|(b, z) l IH]; [change (0 = e * 0)%Qc; ring|]. cbn [map mono_expo fold_right power_of fst snd base expo]. fold (mono_expo x (map (fun be : str * Z => {| coef := 1; base := fst be; expo := (zq (snd be) * e)%Qc; isterm := true |}) l)).
  rewrite IH. destruct (str_eqb b x); rewrite <- zq_add; [ring|]. change (zq 0) with 0%Qc. ring.
Qed.
Lemma expanded_expo y x ts : mono_expo x (expanded y ts) = replaced y x ts.
Proof.
  induction ts as [|t ts IH]; [reflexivity|]. cbn [expanded flat_map replaced fold_right]. fold (expanded y ts) (replaced y x ts). rewrite mono_expo_app, IH, expanded_one. reflexivity.
Qed.
Lemma expanded_compound v l e : compound (S := expos) v (map (fun be : str * Z => {| coef := 1; base := fst be; expo := (zq (snd be) * e)%Qc; isterm := true |}) l)
  = (e * fold_right (fun be d => zq (snd be) * v (fst be) + d)%Qc 0%Qc l)%Qc.
Proof.
  induction l as [|(b, z) l IH]; [change (0 = e * 0)%Qc; ring|]. cbn [map compound fold_right fst snd base expo]. rewrite IH. generalize (fold_right (fun be d => zq (snd be) * v (fst be) + d)%Qc 0%Qc l). intros a. change (v b * (zq z * e) + e * a = e * (zq z * v b + a))%Qc. ring.
Qed.
Lemma expanded_dim y x ts : In x DIMS -> (forall t, In t ts -> proper_term t /\ usable y (base t)) ->
  compound (S := expos) (dim_val libm y x) (expanded y ts) = compound (S := expos) (dim_val libm y x) ts.
Proof.
  intros X. induction ts as [|t ts IH]; intros H; [reflexivity|]. cbn [expanded flat_map]. fold (expanded y ts). rewrite (cmp_app expos expos_laws), IH by (intros; apply H; right; assumption).
  cbn [compound]. f_equal. rewrite expanded_compound. destruct (H t (or_introl eq_refl)) as (P & n & Hn & Al).
  pose proof (measured_in t P) as Q. unfold measured in *. rewrite Hn in *. rewrite (usable_dim y (base t) n Hn Al Q x X). unfold coherent_dim. change (pw (s := expos)) with Qcmult. apply Qcmult_comm.
Qed.
Theorem C69_dimension y ts r : proper_unit [s "lx"] ts -> (forall q, small (total_power q ts)) -> (forall t, In t ts -> usable y (base t)) ->
  normal y ts = Ok r -> moderate r -> exists d, dimension_in y ts = Ok (Some d) /\ dimension_in y r = Ok (Some d).
Proof using deep.
  intros P C U E M. destruct (proper_terms ts P) as (NE & F).
  assert (N : noncancelling ts).
  { destruct (existsb (fun q => negb (qc_eqb (total_power q ts) 0)) QS) eqn:K.
    - apply existsb_exists in K as (q & _ & H). exists q. intros Z. rewrite Z in H. discriminate.
    - exfalso. rewrite (normalize_cancelling libm limit y ts NE F) in E; [discriminate|]. intros (q & H). destruct (in_dec str_eq_dec q QS) as [I|I]; [|apply H, total_unmeasured; assumption].
      assert (K' : existsb (fun q => negb (qc_eqb (total_power q ts) 0)) QS = true); [|congruence]. apply existsb_exists. exists q. split; [exact I|]. rewrite (proj2 (qc_eqb_neq _ _) H). reflexivity. }
  destruct (normalize_ok libm limit deep y ts NE F C N) as (r' & E' & Cr & Pr & B & X). rewrite E in E'. injection E' as <-.
  destruct (normal_proper y ts r F Cr Pr B X M) as (NR & FR).
  destruct (has_dimension y ts NE) as (d & -> & Cd & Pd & Xd); [eapply Forall_impl; [|exact F]; exact proper_dterm|exact U|].
  destruct (has_dimension y r NR) as (d' & -> & Cd' & Pd' & Xd'); [eapply Forall_impl; [|exact FR]; exact proper_dterm|intros t Ht; destruct (symbol_named y (base t) (B t Ht)) as (n & Hn & _ & _ & A); exists n; auto|].
  exists d. split; [reflexivity|]. f_equal. f_equal. apply canonical_eq; [exact Cd'|exact Cd|]. split; [rewrite (plain_coef 8 d Pd), (plain_coef 8 d' Pd'); reflexivity|].
  intros x Hx. rewrite (Xd x Hx), (Xd' x Hx). destruct (in_dec str_eq_dec x DIMS) as [I|I].
  - rewrite <- (expanded_dim y x ts I) by (intros t Ht; split; [exact (proj1 (Forall_forall _ _) F t Ht)|exact (U t Ht)]).
    apply (compound_same expos expos_laws); [exact (dim_val_one libm y x Hx)|]. intros z Hz. rewrite expanded_expo. apply X, Hz.
  - rewrite !compound_zero; [reflexivity| |]; apply Forall_forall; intros t Ht; apply dim_val_none; try assumption; intros m Hm.
    + exact (not_lx _ _ (proj2 (proj1 (Forall_forall _ _) F t Ht)) Hm).
    + exact (not_lx _ _ (proj2 (proj1 (Forall_forall _ _) FR t Ht)) Hm).
Qed.

(** ** What does not hold *)

(** A unit whose quantities cancel - any ratio of two units of the same
    quantity - cannot be normalised at all: the look-up recurses for ever. *)
Theorem C69_cancelling_refuted y ts : proper_unit [s "lx"] ts -> (forall q, total_power q ts = 0%Qc) -> normal y ts = Raise RecursionError.
Proof. intros P Z. destruct (proper_terms ts P) as (NE & F). apply normalize_cancelling; try assumption. intros (q & H). apply H, Z. Qed.
(** A term that is not allowed in the system changes dimension: the gauss
    becomes the tesla. *)
Let gauss : list operand := [{| coef := 1; base := s "G"; expo := 1; isterm := true |}; {| coef := 1; base := s "m"; expo := 1; isterm := true |}].
Theorem C69_dimension_refuted : exists r d d', normal Mks gauss = Ok r /\ dimension_in Mks gauss = Ok (Some d) /\ dimension_in Mks r = Ok (Some d') /\
  mono_expo (s "I") d = 0%Qc /\ mono_expo (s "I") d' = (- (1))%Qc.
Proof using deep.
  destruct (Nat.le_exists_sub 8 limit deep) as (k & -> & _). rewrite Nat.add_comm.
  do 3 eexists. split; [vm_compute; reflexivity|]. split; [vm_compute; reflexivity|]. split; [vm_compute; reflexivity|]. split; vm_compute; reflexivity.
Qed.
End C69.
Print Assumptions C69_normal_form.
Print Assumptions C69_same_quantity.
Print Assumptions C69_idempotent.
Print Assumptions C69_dimension.
Print Assumptions C69_cancelling_refuted.
Print Assumptions C69_dimension_refuted.

(** ** The hypotheses are met *)
Definition un (b : string) (e : Qc) : operand := {| coef := 1; base := s b; expo := e; isterm := true |}.
Ltac outside_tac := let n := fresh "n" in let H := fresh "H" in let I := fresh "I" in
  intros n H I; vm_compute in H; injection H as <-; apply (mem_spec str_eqb str_decides) in I; vm_compute in I; discriminate I.
Ltac term_tac := split; [reflexivity|split; [reflexivity|split; [discriminate|split; [match goal with |- parts _ ?e => exists (qnum (e * zq 2)%Qc); apply Qc_is_canon; vm_compute; reflexivity end|split;
  [split; vm_compute; discriminate|split; [right; split; reflexivity|eexists; split; vm_compute; reflexivity]]]]]].
(** MeV / (km s^1/2): in CGS units erg / (cm s^1/2) *)
Definition case : list operand := [un "MeV" 1; un "km" (- (1))%Qc; un "s" (mkq (-1) 2)].
Example C69_case_proper : proper_unit [s "lx"] case.
Proof. split; [split; [discriminate|]|]; repeat (constructor; [first [term_tac | outside_tac]|]); constructor. Qed.
Example C69_case_totals : (forall q, small (total_power q case)) /\ total_power (s "length") case = (- (1))%Qc.
Proof.
  split; [|vm_compute; reflexivity]. intros q. unfold case. cbn [total_power fold_right un base expo].
  destruct (str_eqb (measured (s "MeV")) q); destruct (str_eqb (measured (s "km")) q); destruct (str_eqb (measured (s "s")) q); split; vm_compute; discriminate.
Qed.
Example C69_case_usable : forall t, In t case -> usable Cgs (base t).
Proof. intros t [<-|[<-|[<-|[]]]]; eexists; split; vm_compute; reflexivity. Qed.
Example C69_case_normal : exists r, normalize (fun _ _ => None) 20 Cgs case = Ok r /\ map base r = [s "erg"; s "s"; s "cm"] /\ Forall (fun t => small (expo t)) r /\
  map (fun t => this (expo t)) r = [1%Q; (-1 # 2)%Q; (-1)%Q].
Proof.
  eexists. split; [vm_compute; reflexivity|]. split; [vm_compute; reflexivity|]. split; [|vm_compute; reflexivity]. repeat (constructor; [split; vm_compute; discriminate|]). constructor.
Qed.
(** the degree per radian cannot be normalised *)
Definition ratio_case : list operand := [un "deg" 1; un "rad" (- (1))%Qc].
Example C69_cancelling_case : proper_unit [s "lx"] ratio_case /\ (forall q, total_power q ratio_case = 0%Qc).
Proof.
  split; [split; [split; [discriminate|]|]; repeat (constructor; [first [term_tac | outside_tac]|]); constructor|].
  intros q. unfold ratio_case. cbn [total_power fold_right un base expo]. change (measured (s "deg")) with (measured (s "rad")). destruct (str_eqb (measured (s "rad")) q); reflexivity.
Qed.
