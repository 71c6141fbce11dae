(** Normal forms of units over the package's tables *)
From Verif Require Import PyBase PyLemmas SymbolicModel SymbolicSpec SymbolicProofs SymbolicRegex SymbolicParse SymbolicTotal SymbolicRoundTrip SymbolicAlgebra ContainerModel ContainerSpec ContainerProofs ContainerProofs2 AliasedModel MetricModel MetricSpec MetricTables MetricSizes MetricProofs MetricProofs2 UnitModel UnitOpsModel UnitOpsSpec UnitOpsProofs UnitOpsProofs2 UnitOpsTables UnitOpsProofs3 NormalizeModel NormalizeSpec NormalizeProofs.

Definition symbols (y : system) : list str := map fst (flat_map (fun e => entry COHERENT (fst e) y) COHERENT).
Definition known_symbol (b : str) : bool := match named_unit b with Some n => str_eqb (n_symbol n) b && negb (lx n) | None => false end.
Definition QS : list str := map fst COHERENT.
Section Tables.
Set Default Proof Using "Type".
Variable libm : Qc -> Qc -> option Qc.
Variable k : nat.
(** one quantity in one system: its canonical unit *)
Definition quantity_check (y : system) (q : str) : bool :=
  match property libm (8 + k) true y (blanks_to_underscores q) with
  | Ok v => match expression_of_str libm v with
            | Ok e => match e with [] => false | _ => true end && forallb (plain_check 2) e
                      && forallb (fun t => qc_leb (zq (-10)) (expo t) && qc_leb (expo t) (zq 10)) e
                      && forallb (fun t => str_eqb (base t) one_base || mem str_eqb (base t) (symbols y)) e
                      && forallb (fun x => qc_eqb (mono_expo x e) (coherent y q x)) (symbols y)
            | Raise _ => false
            end
  | Raise _ => false
  end.
Lemma quantity_checks : forallb (fun y => forallb (quantity_check y) QS) [Mks; Cgs] = true.
Proof. vm_compute. reflexivity. Qed.
Definition name_check (q : str) : bool :=
  str_eqb (underscores_to_blanks (blanks_to_underscores q)) q && is_symbol (blanks_to_underscores q) && negb (sqrt_prefix (blanks_to_underscores q)).
Lemma name_checks : forallb name_check QS = true.
Proof. vm_compute. reflexivity. Qed.
Definition unit_check (n : nunit) : bool :=
  lx n || negb (str_eqb (n_symbol n) one_base || (is_symbol (n_symbol n) && negb (sqrt_prefix (n_symbol n)))) || mem str_eqb (b_quantity n) QS.
Lemma unit_checks : forallb (fun e => unit_check (snd e)) NAMED = true.
Proof. vm_compute. reflexivity. Qed.
Definition allowed_check (y : system) (b : str) : bool :=
  match named_unit b with Some n => str_eqb (n_symbol n) b && negb (lx n) && match is_allowed_in named_unit quantity_unit n y with Ok a => a | Raise _ => false end | None => false end.
Lemma symbol_checks : forallb (fun y => forallb (allowed_check y) (one_base :: symbols y)) [Mks; Cgs] = true.
Proof. vm_compute. reflexivity. Qed.
(** the dimension of the canonical unit is that of the quantity *)
Definition coherent_dim (y : system) (q x : str) : Qc :=
  fold_right (fun be d => zq (snd be) * dim_val libm y x (fst be) + d)%Qc 0%Qc (entry COHERENT q y).
Definition dims_check (y : system) (q : str) : bool :=
  match dim_of_str libm (quantity_dim q y) with
  | Ok (Some d) => forallb (fun x => qc_eqb (mono_expo x d) (coherent_dim y q x)) DIMS
  | _ => false
  end.
Lemma dims_checks : forallb (fun y => forallb (dims_check y) QS) [Mks; Cgs] = true.
Proof. vm_compute. reflexivity. Qed.
(** a canonical unit symbol is the canonical unit of the quantity it measures *)
Definition self_check (y : system) (b : str) : bool :=
  forallb (fun x => qc_eqb (coherent y (measured b) x) (if str_eqb b x then 1 else 0)) (symbols y)
  && mem str_eqb (measured b) QS && is_symbol b && negb (sqrt_prefix b).
End Tables.
Lemma self_checks : forallb (fun y => forallb (self_check y) (symbols y)) [Mks; Cgs] = true.
Proof. vm_compute. reflexivity. Qed.

Section Normal.
Set Default Proof Using "Type".
Variable libm : Qc -> Qc -> option Qc.
Variable limit : nat.
Hypothesis deep : 8 <= limit.

Lemma checked {A} (f : system -> A -> bool) l y a : forallb (fun y => forallb (f y) l) [Mks; Cgs] = true -> In a l -> f y a = true.
Proof using. intros H I. pose proof (proj1 (forallb_forall _ _) H y (in_systems y)) as K. exact (proj1 (forallb_forall _ _) K a I). Qed.
Lemma power_absent l x : ~ In x (map fst l) -> power_of l x = 0%Z.
Proof using.
  induction l as [|(b, e) l IH]; intros H; [reflexivity|]. cbn in H |- *. rewrite IH by tauto. rewrite (proj2 (str_eqb_neq b x)) by tauto. reflexivity.
Qed.
Lemma entry_symbols q y b : In b (map fst (entry COHERENT q y)) -> In b (symbols y).
Proof using.
  intros H. assert (I : In q QS \/ entry COHERENT q y = []).
  { unfold QS. generalize COHERENT. intros l. induction l as [|(k, (m, c)) l IH]; [right; reflexivity|]. cbn. destruct (str_eqb_spec k q); [left; left; assumption|]. destruct IH; [left; right; assumption|right; assumption]. }
  destruct I as [I|I]; [|rewrite I in H; destruct H]. unfold symbols. apply in_map_iff in H as (be & <- & Hb). apply in_map. apply in_flat_map. unfold QS in I. apply in_map_iff in I as (c & Ec & Hc). exists c. rewrite Ec. auto.
Qed.
Lemma coherent_absent y q x : ~ In x (symbols y) -> coherent y q x = 0%Qc.
Proof using. intros H. unfold coherent. rewrite power_absent; [reflexivity|]. intros I. apply H. eapply entry_symbols, I. Qed.
Lemma mono_expo_absent x e : (forall t, In t e -> base t <> x) -> mono_expo x e = 0%Qc.
Proof using. exact (mono_expo_none x e). Qed.

(** the terms of the quantity of a unit *)
Definition qterm (t : operand) : operand := {| coef := 1; base := blanks_to_underscores (measured (base t)); expo := expo t; isterm := true |}.
Definition proper_term (t : operand) : Prop := unit_term named_unit 2 t /\ UnitOpsSpec.outside [s "lx"] (base t).
Lemma not_lx u n : UnitOpsSpec.outside [s "lx"] u -> named_unit u = Some n -> lx n = false.
Proof using. intros O H. destruct (lx n) eqn:E; [|reflexivity]. exfalso. apply (O n H). left. unfold lx in E. symmetry. apply str_eqb_eq, E. Qed.
Lemma measured_in t : proper_term t -> In (measured (base t)) QS.
Proof using.
  intros ((_ & _ & _ & _ & _ & W & n & Hn & En) & O). unfold measured. rewrite Hn. pose proof (of_entries unit_check unit_checks _ _ Hn) as K. unfold unit_check in K.
  rewrite (not_lx _ _ O Hn), En in K. apply (mem_spec str_eqb str_decides). destruct W as [W|(W1 & W2)].
  - rewrite W, str_eqb_refl in K. exact K.
  - rewrite W1, W2, orb_true_r in K. exact K.
Qed.
Lemma name_ok q : In q QS -> underscores_to_blanks (blanks_to_underscores q) = q /\ is_symbol (blanks_to_underscores q) = true /\ sqrt_prefix (blanks_to_underscores q) = false.
Proof using.
  intros H. pose proof (proj1 (forallb_forall _ _) name_checks q H) as K. unfold name_check in K. apply andb_true_iff in K as (K & K3). apply andb_true_iff in K as (K1 & K2).
  apply str_eqb_eq in K1. apply negb_true_iff in K3. auto.
Qed.
Lemma qterm_plain t : proper_term t -> plain_term 2 (qterm t).
Proof using.
  intros P. destruct (name_ok _ (measured_in t P)) as (_ & N2 & N3). destruct P as ((H1 & H2 & H3 & H4 & _) & _).
  split; [reflexivity|]. split; [reflexivity|]. split; [exact H3|]. split; [exact H4|]. right. auto.
Qed.
Lemma quantity_term_ok t : proper_term t -> quantity_term libm t = Ok (qterm t).
Proof using.
  intros P. destruct (name_ok _ (measured_in t P)) as (_ & N2 & N3). pose proof P as ((H1 & H2 & H3 & H4 & _ & _ & n & Hn & _) & _).
  unfold quantity_term, identify. unfold measured, qterm in *. rewrite Hn in *. cbn [bind]. unfold measured. rewrite Hn. set (b := blanks_to_underscores (b_quantity n)) in *. clearbody b.
  unfold term_factory. rewrite (symbol_valid b N2). cbn [bind].
  assert (NE : b <> []) by (clear - N2; destruct b; [discriminate|congruence]).
  assert (M : mk_operand true 1 b 1 = {| coef := 1; base := b; expo := 1; isterm := true |}) by (unfold mk_operand; destruct b; [congruence|]; reflexivity).
  rewrite M. rewrite (op_pow_plain libm 2); [|split; [reflexivity|]; split; [reflexivity|]; split; [discriminate|]; split; [exact (parts_int 2 1)|right; auto]|exact H3].
  unfold raise. cbn [base expo]. f_equal. f_equal. ring.
Qed.
Lemma get_quantity_ok ts : ts <> [] -> Forall proper_term ts ->
  exists qs, get_quantity libm ts = Ok qs /\ reduced_to 8 (map qterm ts) qs /\ plain 2 qs.
Proof using.
  intros N F. unfold get_quantity. rewrite (mapM_const _ qterm) by (intros t Ht; apply quantity_term_ok; exact (proj1 (Forall_forall _ _) F t Ht)). cbn [bind].
  assert (NM : map qterm ts <> []) by (destruct ts; [congruence|discriminate]).
  assert (P2 : plain 2 (map qterm ts)) by (apply Forall_map; eapply Forall_impl; [|exact F]; exact qterm_plain).
  destruct (of_terms_plain libm (map qterm ts) NM (plain_more 2 4 _ P2)) as (r & E & R). exists r. split; [exact E|]. split; [exact R|]. exact (reduced_sub 8 2 _ _ NM R P2).
Qed.
Lemma total_qterm q ts : In q QS -> Forall proper_term ts -> mono_expo (blanks_to_underscores q) (map qterm ts) = total_power q ts.
Proof using.
  intros Q F. induction F as [|t ts P _ IH]; [reflexivity|]. cbn [map mono_expo total_power fold_right]. fold (mono_expo (blanks_to_underscores q) (map qterm ts)) (total_power q ts).
  rewrite IH. cbn [qterm base expo]. destruct (str_eqb_spec (measured (base t)) q) as [E|E].
  - rewrite E, str_eqb_refl. reflexivity.
  - rewrite (proj2 (str_eqb_neq _ _)); [reflexivity|]. intros X. apply E. apply (f_equal underscores_to_blanks) in X.
    rewrite (proj1 (name_ok _ (measured_in t P))), (proj1 (name_ok _ Q)) in X. exact X.
Qed.
Lemma total_unmeasured q ts : ~ In q QS -> Forall proper_term ts -> total_power q ts = 0%Qc.
Proof using.
  intros Q F. induction F as [|t ts P _ IH]; [reflexivity|]. cbn [total_power fold_right]. fold (total_power q ts). rewrite IH.
  rewrite (proj2 (str_eqb_neq _ _)); [reflexivity|]. intros E. apply Q. rewrite <- E. apply measured_in, P.
Qed.
Lemma canonical_cases r : canonical r -> mono_coef r = 1%Qc -> r = [const_term 1] \/ forall t, In t r -> base t <> one_base.
Proof using.
  intros (c & vs & E & N & F & _) M.
  assert (Mv : mono_coef vs = 1%Qc).
  { clear - F. induction F as [|t vs (b & e & -> & _) _ IH]; [reflexivity|]. cbn [mono_coef fold_right coef var_term]. fold (mono_coef vs). rewrite IH. ring. }
  assert (Fv : forall t, In t vs -> base t <> one_base).
  { intros t Ht. destruct (proj1 (Forall_forall _ _) F t Ht) as (b & e & -> & Nb & _). exact Nb. }
  destruct vs as [|v vs].
  - left. rewrite E in *. cbn in M. rewrite Qcmult_1_r in M. rewrite M. reflexivity.
  - right. destruct (qc_eqb_spec c 1) as [C|C]; [rewrite E; exact Fv|]. exfalso. apply C. rewrite E in M.
    change (mono_coef (const_term c :: v :: vs)) with (c * mono_coef (v :: vs))%Qc in M. rewrite Mv, Qcmult_1_r in M. exact M.
Qed.
(** the canonical unit of a quantity, raised to a power *)
Lemma canonical_power_ok y q e : In q QS -> e <> 0%Qc -> parts 4 e -> small e ->
  exists r, canonical_power libm limit y {| coef := 1; base := blanks_to_underscores q; expo := e; isterm := true |} = Ok r /\ canonical r /\ plain 8 r /\
    (forall t, In t r -> base t = one_base \/ In (base t) (symbols y)) /\ forall x, x <> one_base -> mono_expo x r = (e * coherent y q x)%Qc.
Proof using deep.
  intros Q N P Sm. destruct (Nat.le_exists_sub 8 limit deep) as (k & -> & _). rewrite Nat.add_comm.
  pose proof (checked (quantity_check libm k) QS y q (quantity_checks libm k) Q) as K. unfold quantity_check in K.
  unfold canonical_power. cbn [base expo]. destruct property as [v|]; [|discriminate]. cbn [bind]. destruct (expression_of_str libm v) as [c|]; [|discriminate]. cbn [bind].
  apply andb_true_iff in K as (K & K5). apply andb_true_iff in K as (K & K4). apply andb_true_iff in K as (K & K3). apply andb_true_iff in K as (K1 & K2).
  assert (NE : c <> []) by (destruct c; [discriminate|congruence]).
  assert (PC : plain 2 c) by (apply Forall_forall; intros t Ht; apply plain_check_ok; exact (proj1 (forallb_forall _ _) K2 t Ht)).
  destruct (epow_plain libm 2 4 c e) as (r & -> & RT); try assumption.
  - exists 1%positive. reflexivity.
  - apply small_double; [exact (parts_more 4 2 _ P)|exact Sm].
  - unfold tame. apply Forall_forall. intros t Ht. pose proof (proj1 (forallb_forall _ _) K3 t Ht) as B. cbv beta in B. apply andb_true_iff in B as (B1 & B2).
    destruct (qc_leb_spec (zq (-10)) (expo t)) as [B1'|]; [|discriminate]. destruct (qc_leb_spec (expo t) (zq 10)) as [B2'|]; [|discriminate].
    pose proof (proj1 (Forall_forall _ _) PC t Ht) as (_ & _ & _ & Pt & _).
    split; [apply parts_small_double; [exact (parts_more 2 4 _ Pt)|eapply Qcle_trans; [|exact B1']|eapply Qcle_trans; [exact B2'|]]; vm_compute; discriminate|].
    rewrite Qcmult_comm. destruct (small_mul e (expo t) Sm) as (C1 & C2).
    + eapply Qcle_trans; [|exact B1']. vm_compute. discriminate.
    + eapply Qcle_trans; [exact B2'|]. vm_compute. discriminate.
    + apply parts_small_double; try assumption. exact (parts_mul 4 2 _ _ P Pt).
  - assert (BS : forall t, In t c -> base t = one_base \/ In (base t) (symbols y)).
    { intros t Ht. pose proof (proj1 (forallb_forall _ _) K4 t Ht) as B. cbv beta in B. apply orb_true_iff in B as [B|B]; [left; apply str_eqb_eq, B|right; apply (mem_spec str_eqb str_decides), B]. }
    exists r. split; [reflexivity|]. split; [apply RT|]. split; [apply RT|]. split.
    + intros t Ht. destruct (rt_base _ _ _ RT t Ht) as [E|(w & Hw & <-)]; [left; exact E|]. apply in_map_iff in Hw as (w' & <- & Hw). cbn [raise base]. apply BS, Hw.
    + intros x X. rewrite (rt_expo _ _ _ RT x X), raise_expo. f_equal. destruct (in_dec str_eq_dec x (symbols y)) as [I|I].
      * pose proof (proj1 (forallb_forall _ _) K5 x I) as E. apply qc_eqb_eq in E. exact E.
      * rewrite coherent_absent by exact I. apply mono_expo_absent. intros t Ht E. destruct (BS t Ht) as [B|B]; congruence.
Qed.
Lemma replaced_compound y x ts : replaced y x ts = compound (S := expos) (fun b => coherent y (underscores_to_blanks b) x) (map qterm ts) \/ ~ Forall proper_term ts.
Proof using.
  induction ts as [|t ts IH]; [left; reflexivity|]. destruct IH as [IH|IH]; [|right; intros F; inversion F; contradiction].
  destruct (in_dec str_eq_dec (measured (base t)) QS) as [I|I]; [|right; intros F; inversion F; subst; apply I; apply measured_in; assumption].
  left. cbn [map compound fold_right replaced]. fold (replaced y x ts). cbn [qterm base expo]. rewrite (proj1 (name_ok _ I)), IH. generalize (compound (S := expos) (fun b => coherent y (underscores_to_blanks b) x) (map qterm ts)) (coherent y (measured (base t)) x). intros a b. change (expo t * b + a = b * expo t + a)%Qc. f_equal. apply Qcmult_comm.
Qed.
Definition calm (ts : list operand) : Prop := forall q, small (total_power q ts).
Definition noncancelling (ts : list operand) : Prop := exists q, total_power q ts <> 0%Qc.
Lemma in_reduced_expo r t : canonical r -> In t r -> base t <> one_base -> mono_expo (base t) r = expo t.
Proof using.
  intros (c & vs & -> & _ & _ & _ & Nd) I B.
  assert (V : In t vs -> mono_expo (base t) vs = expo t).
  { clear - Nd. induction vs as [|v vs IH]; intros H; [destruct H|]. inversion Nd as [|? ? Nv Nd']; subst. cbn [mono_expo fold_right]. fold (mono_expo (base t) vs). destruct H as [->|H].
    - rewrite str_eqb_refl, mono_expo_absent; [ring|]. intros w Hw E. apply Nv. rewrite <- E. apply in_map, Hw.
    - rewrite (proj2 (str_eqb_neq _ _)); [apply IH; assumption|]. intros E. apply Nv. rewrite E. apply in_map, H. }
  assert (K : forall l, mono_expo (base t) (const_term c :: l) = mono_expo (base t) l).
  { intros l. cbn [mono_expo fold_right]. fold (mono_expo (base t) l). cbn [const_term base]. rewrite (proj2 (str_eqb_neq _ _)) by congruence. reflexivity. }
  destruct vs as [|v vs]; [destruct I as [<-|[]]; exfalso; apply B; reflexivity|]. destruct (qc_eqb c 1); [apply V, I|]. rewrite K. apply V. destruct I as [<-|I]; [exfalso; apply B; reflexivity|exact I].
Qed.
Lemma normalize_ok y ts : ts <> [] -> Forall proper_term ts -> calm ts -> noncancelling ts ->
  exists r, normalize libm limit y ts = Ok r /\ canonical r /\ plain 8 r /\ (forall t, In t r -> base t = one_base \/ In (base t) (symbols y)) /\
    forall x, x <> one_base -> mono_expo x r = replaced y x ts.
Proof using deep.
  intros N F Sm (q0 & Q0). destruct (get_quantity_ok ts N F) as (qs & E & R & P2). unfold normalize. rewrite E. cbn [bind].
  assert (QI : forall t, In t qs -> exists q, In q QS /\ small (expo t) /\ expo t <> 0%Qc /\ t = {| coef := 1; base := blanks_to_underscores q; expo := expo t; isterm := true |}).
  { intros t Ht. destruct (canonical_cases qs (rt_canonical _ _ _ R) (rt_coef _ _ _ R)) as [C|C].
    - exfalso. destruct (in_dec str_eq_dec q0 QS) as [I|I]; [|apply Q0, total_unmeasured; assumption]. apply Q0. rewrite <- (total_qterm q0 ts I F).
      assert (B : blanks_to_underscores q0 <> one_base) by (destruct (name_ok q0 I) as (_ & B & _); exact (symbol_not_one _ B)).
      rewrite <- (rt_expo _ _ _ R _ B), C. cbn [mono_expo fold_right const_term base]. rewrite (proj2 (str_eqb_neq _ _)) by congruence. reflexivity.
    - pose proof (C t Ht) as B. destruct (rt_base _ _ _ R t Ht) as [B'|(w & Hw & Ew)]; [contradiction|]. apply in_map_iff in Hw as (v & <- & Hv). cbn [qterm base] in Ew.
      pose proof (measured_in v (proj1 (Forall_forall _ _) F v Hv)) as Q. exists (measured (base v)). split; [exact Q|].
      pose proof (proj1 (Forall_forall _ _) P2 t Ht) as (H1 & H2 & H3 & _). split; [|split; [exact H3|rewrite Ew; clear - H1 H2; destruct t; cbn in *; subst; reflexivity]].
      rewrite <- (in_reduced_expo qs t (rt_canonical _ _ _ R) Ht B), (rt_expo _ _ _ R _ B), <- Ew, (total_qterm _ ts Q F). apply Sm. }
  assert (L : exists es, mapM (canonical_power libm limit y) qs = Ok es /\ Forall (fun e => canonical e /\ plain 8 e) es /\
     (forall t, In t (concat es) -> base t = one_base \/ In (base t) (symbols y)) /\
     forall x, x <> one_base -> mono_expo x (concat es) = compound (S := expos) (fun b => coherent y (underscores_to_blanks b) x) qs).
  { clear R E. induction qs as [|t qs IH]; [exists []; split; [reflexivity|split; [constructor|split; [contradiction|reflexivity]]]|].
    inversion P2 as [|? ? Pt P2']; subst. destruct IH as (es & E2 & F2 & B2 & X2); [exact P2'|intros w Hw; apply QI; right; exact Hw|].
    destruct (QI t (or_introl eq_refl)) as (q & Q & St & Nt & Et). destruct Pt as (_ & _ & _ & Pt & _).
    destruct (canonical_power_ok y q (expo t) Q Nt (parts_more 2 2 _ Pt) St) as (r & E1 & C1 & P1 & B1 & X1). rewrite <- Et in E1.
    exists (r :: es). cbn [mapM]. rewrite E1. cbn [bind]. rewrite E2. cbn [bind]. split; [reflexivity|]. split; [constructor; auto|]. split.
    - intros w Hw. cbn [concat] in Hw. apply in_app_or in Hw as [Hw|Hw]; auto.
    - intros x X. cbn [concat]. rewrite mono_expo_app, (X1 x X), (X2 x X).
      change (compound (S := expos) (fun b => coherent y (underscores_to_blanks b) x) (t :: qs)) with
        (coherent y (underscores_to_blanks (base t)) x * expo t + compound (S := expos) (fun b => coherent y (underscores_to_blanks b) x) qs)%Qc.
      f_equal. rewrite Et. cbn [base expo]. rewrite (proj1 (name_ok q Q)). ring. }
  destruct L as (es & EL & FL & BL & XL). unfold quantity_in. rewrite EL. cbn [bind].
  assert (NQ : qs <> []) by (destruct (canonical_ok qs (rt_canonical _ _ _ R)); assumption).
  assert (Nes : es <> []).
  { intros ->. destruct qs as [|t qs]; [congruence|]. cbn [mapM] in EL. destruct (canonical_power libm limit y t) as [a|]; [|discriminate]. cbn [bind] in EL. destruct (mapM (canonical_power libm limit y) qs); discriminate. }
  destruct (product_of_expressions libm es Nes FL) as (r & -> & RR). cbn [bind].
  assert (BR : forall t, In t r -> base t = one_base \/ In (base t) (symbols y)).
  { intros t Ht. destruct (rt_base _ _ _ RR t Ht) as [B|(w & Hw & <-)]; [left; exact B|]. apply BL, Hw. }
  exists r. split; [|split; [apply RR|split; [apply RR|split; [exact BR|]]]].
  - rewrite (mapM_const _ (fun t => t)); [rewrite map_id; reflexivity|]. intros t Ht. apply (as_symbol_known libm named_unit 8).
    + exact (proj1 (Forall_forall _ _) (rt_plain _ _ _ RR) t Ht).
    + assert (I : In (base t) (one_base :: symbols y)) by (destruct (BR t Ht) as [->|B]; [left; reflexivity|right; exact B]).
      pose proof (proj1 (forallb_forall _ _) symbol_checks y (in_systems y)) as K. pose proof (proj1 (forallb_forall _ _) K _ I) as K'. unfold allowed_check in K'.
      destruct (named_unit (base t)) as [n|] eqn:En; [|discriminate]. exists n. split; [exact En|]. apply andb_true_iff in K' as (K' & _). apply andb_true_iff in K' as (K' & _). apply str_eqb_eq in K'. exact K'.
  - intros x X. rewrite (rt_expo _ _ _ RR x X), (XL x X). destruct (replaced_compound y x ts) as [->|NF]; [|contradiction].
    assert (O1 : coherent y (underscores_to_blanks one_base) x = 0%Qc) by (destruct y; reflexivity).
    exact (cmp_reduced expos expos_laws (fun b => coherent y (underscores_to_blanks b) x) 8 (map qterm ts) qs O1 R).
Qed.
(** cancelling quantities *)
Lemma property_one y : forall f, property libm f true y one_base = Raise RecursionError.
Proof using.
  induction f as [|f IH]; [reflexivity|]. cbn [property].
  replace (assoc QUANTITIES one_base) with (@None qdef) by (vm_compute; reflexivity).
  replace (fold_left (fun x k => replace k (blanks_to_underscores k) x) (map fst QUANTITIES) one_base) with one_base by (vm_compute; reflexivity).
  change one_base with (format_expression [const_term 1]) at 1. rewrite (parse_format libm) by first [apply canonical_one|reflexivity].
  cbn [bind mapM const_term base]. change (underscores_to_blanks one_base) with one_base. rewrite IH. reflexivity.
Qed.
Lemma normalize_cancelling y ts : ts <> [] -> Forall proper_term ts -> ~ noncancelling ts -> normalize libm limit y ts = Raise RecursionError.
Proof using.
  intros N F Z. destruct (get_quantity_ok ts N F) as (qs & E & R & P2). unfold normalize. rewrite E. cbn [bind].
  destruct (canonical_cases qs (rt_canonical _ _ _ R) (rt_coef _ _ _ R)) as [->|C].
  - unfold quantity_in. cbn [mapM]. unfold canonical_power. cbn [const_term base]. rewrite property_one. reflexivity.
  - exfalso. apply Z. destruct (canonical_ok qs (rt_canonical _ _ _ R)) as [NQ _]. destruct qs as [|t qs]; [congruence|]. pose proof (C t (or_introl eq_refl)) as B.
    destruct (rt_base _ _ _ R t (or_introl eq_refl)) as [B'|(w & Hw & Ew)]; [contradiction|]. apply in_map_iff in Hw as (v & <- & Hv). cbn [qterm base] in Ew.
    pose proof (measured_in v (proj1 (Forall_forall _ _) F v Hv)) as Q. exists (measured (base v)). rewrite <- (total_qterm _ ts Q F), Ew, <- (rt_expo _ _ _ R _ B), (in_reduced_expo _ _ (rt_canonical _ _ _ R) (or_introl eq_refl) B).
    pose proof (proj1 (Forall_forall _ _) P2 t (or_introl eq_refl)) as (_ & _ & H3 & _). exact H3.
Qed.
End Normal.
