(** * Property C67: numpy functions of physical objects *)
From Verif Require Import PyBase PyLemmas ContainerModel ContainerSpec ContainerProofs ContainerProofs2 Nd IndexModel IndexSpec IndexProofs IndexProofs2 ArrayModel ArraySpec ArrayProofs ArrayProofs2 ArrayProofs3 ArrayProofs4 ArrayProperties AxesModel PhysicalModel PhysicalSpec PhysicalProofs PhysicalProofs2 PhysicalProofs3 PhysicalProofs4 PhysicalProofs5 PhysFuncModel PhysFuncSpec PhysFuncProofs.

Section Properties.
Set Default Proof Using "Type".
Context {U B : Type}.
Variables (ueq : U -> U -> bool) (udiv : U -> U -> result U) (upow : U -> Qc -> result U) (uone : U) (ustr : U -> str) (blen : B -> nat).
Notation arr := (parr (U := U) (B := B)).
Notation obj := (pobj (U := U)).
Notation val := (pval (U := U) (B := B)).
Ltac datum x T := let d := fresh "dx" in let E := fresh "E" in let N := fresh "N" in let S := fresh "S" in let W := fresh "W" in let L := fresh "L" in let V := fresh "V" in
  destruct (adata_ok x (proj1 T)) as (d & E & N & S & W & L & V); try rewrite E; cbn [bind].

Lemma apply_arr f (x : arr) u : tidy x -> exists z, apply_unit f (PArr x) u = Ok (PArr z) /\ elementwise x z u f.
Proof.
  intros T. cbn [apply_unit]. datum x T. assert (An : anames dx = anames (face x)) by (unfold anames; rewrite N; reflexivity).
  destruct (arr_map (B := B) x (nd_map f (data dx)) u f T) as (z & Ez & R); [exact S|intros c H; cbn [nd_map elem]; f_equal; rewrite <- (V c H); unfold at_; rewrite An; reflexivity|].
  exists z. unfold result_arr. rewrite Ez. split; [reflexivity|exact R].
Qed.
Lemma apply_obj f (x : obj) u : well_formed x -> apply_unit (B := B) f (PObj x) u = Ok (PObj (mkobj (okind x) (nd_map f (odata x)) u)).
Proof.
  intros W. cbn [apply_unit]. unfold result_obj, build, well_formed in *. cbn [nd_map shape]. destruct (okind x).
  - rewrite W. reflexivity.
  - unfold ndim. cbn [nd_map shape]. rewrite W. reflexivity.
  - unfold ndim. cbn [nd_map shape]. destruct (shape (odata x)) eqn:E; [contradiction|]. reflexivity.
Qed.
(** ** Sine, cosine, tangent *)
(** An angle in radians: the function of every number; no unit *)
Theorem C67_trig_radians (f : Qc -> Qc) : (forall x : arr, tidy x -> ustr (aunit x) = s "rad" -> exists z, apply_trig uone ustr f (PArr x) = Ok (PArr z) /\ elementwise x z uone f) /\
  forall x : obj, well_formed x -> ustr (ounit x) = s "rad" ->
    exists z, apply_trig (B := B) uone ustr f (PObj x) = Ok (PObj z) /\ okind z = okind x /\ ounit z = uone /\ shape (odata z) = shape (odata x) /\ forall ix, elem (odata z) ix = f (elem (odata x) ix).
Proof.
  split.
  - intros x T E. unfold apply_trig. cbn [unit_of punit bind]. rewrite E, str_eqb_refl. cbn [orb]. apply apply_arr, T.
  - intros x W E. unfold apply_trig. cbn [unit_of punit bind]. rewrite E, str_eqb_refl. cbn [orb]. rewrite apply_obj by exact W. eexists. split; [reflexivity|]. repeat split.
Qed.
(** what is not an angle is refused *)
Theorem C67_trig_units (f : Qc -> Qc) (x : val) u : punit x = Some u -> ustr u <> s "rad" -> ustr u <> s "deg" -> apply_trig uone ustr f x = Raise ValueError.
Proof.
  intros E H1 H2. unfold apply_trig, unit_of. rewrite E. cbn [bind]. rewrite (proj2 (str_eqb_neq _ _) H1), (proj2 (str_eqb_neq _ _) H2). reflexivity.
Qed.
(** Refuted: the sine of an angle is not that of the same angle in another unit.
    Degrees are not converted: sin(30 deg) is the sine of thirty radians. *)
Theorem C67_degrees_refuted (factor : U -> U -> option Qc) (consistent : U -> U -> bool) (size : U -> Qc) (f : Qc -> Qc) (deg rad : U) (v w : Qc) :
  measures ueq factor size -> ustr deg = s "deg" -> ustr rad = s "rad" -> factor deg rad = Some w -> ueq deg rad = false -> f v <> f (w * v)%Qc ->
  let x : obj := mkobj KScalar (mknd [] (fun _ => v)) deg in
  exists y a b, obj_withunit ueq factor consistent x rad = Ok y /\ same_quantity size x y /\
    apply_trig (B := B) uone ustr f (PObj x) = Ok (PObj a) /\ apply_trig (B := B) uone ustr f (PObj y) = Ok (PObj b) /\ ounit a = ounit b /\ elem (odata a) [] <> elem (odata b) [].
Proof.
  intros M Hd Hr F E Ne x. unfold obj_withunit. cbn [ounit x]. unfold conversion_factor. rewrite F. cbn [bind]. rewrite E. cbn [okind x build shape nd_map odata].
  eexists. do 2 eexists. split; [reflexivity|]. split; [|split; [|split]].
  - split; [reflexivity|]. split; [reflexivity|]. intros ix _. unfold amount. cbn. rewrite <- (factor_sizes _ _ _ M _ _ _ F). ring.
  - unfold apply_trig. cbn [unit_of punit bind ounit x]. rewrite Hd, str_eqb_refl, orb_true_r. rewrite apply_obj by reflexivity. reflexivity.
  - unfold apply_trig. cbn [unit_of punit bind ounit]. rewrite Hr, str_eqb_refl. cbn [orb]. rewrite apply_obj by reflexivity. reflexivity.
  - split; [reflexivity|]. cbn. exact Ne.
Qed.

(** ** Square roots and logarithms *)
(** If the unit's root squares to the unit and the numbers' roots square to the
    numbers, the amounts' roots square to the amounts *)
Theorem C67_sqrt (root : Qc -> Qc) (size : U -> Qc) : (forall u w, upow u (mkq 1 2) = Ok w -> (size w * size w)%Qc = size u) ->
  (forall (x : arr) u, tidy x -> upow (aunit x) (mkq 1 2) = Ok u -> exists z, apply_sqrt upow root (PArr x) = Ok (PArr z) /\ elementwise x z u root /\
     forall c, inside x c -> (root (value_at x c) * root (value_at x c))%Qc = value_at x c -> (amount_at size z c * amount_at size z c)%Qc = amount_at size x c) /\
  (forall (x : obj) u, well_formed x -> upow (ounit x) (mkq 1 2) = Ok u -> exists z, apply_sqrt (B := B) upow root (PObj x) = Ok (PObj z) /\ okind z = okind x /\ ounit z = u /\
     shape (odata z) = shape (odata x) /\ forall ix, elem (odata z) ix = root (elem (odata x) ix) /\
       ((root (elem (odata x) ix) * root (elem (odata x) ix))%Qc = elem (odata x) ix -> (amount size z ix * amount size z ix)%Qc = amount size x ix)) /\
  (forall (x : val) u e, punit x = Some u -> upow u (mkq 1 2) = Raise e -> apply_sqrt upow root x = Raise e).
Proof.
  intros M. split; [|split].
  - intros x u T E. unfold apply_sqrt. cbn [unit_of punit bind]. rewrite E. cbn [bind]. destruct (apply_arr root x u T) as (z & Ez & R). exists z. split; [exact Ez|]. split; [exact R|].
    intros c Hc Hr. destruct R as (_ & Uz & Sz & _ & _ & V). unfold amount_at. rewrite (value_scaled z c Sz), (V c Hc), Uz, <- (M _ _ E). fold (value_at x c). rewrite <- Hr at 3. ring.
  - intros x u W E. unfold apply_sqrt. cbn [unit_of punit bind]. rewrite E. cbn [bind]. rewrite apply_obj by exact W. eexists. split; [reflexivity|]. split; [reflexivity|]. split; [reflexivity|]. split; [reflexivity|].
    intros ix. split; [reflexivity|]. intros Hr. unfold amount. cbn [ounit odata nd_map elem]. rewrite <- (M _ _ E). rewrite <- Hr at 3. ring.
  - intros x u e P E. unfold apply_sqrt, unit_of. rewrite P. cbn [bind]. rewrite E. reflexivity.
Qed.
(** a logarithm needs a number without a unit *)
Theorem C67_log (f : Qc -> Qc) : (forall (x : val) u, punit x = Some u -> ustr u <> s "1" -> apply_log uone ustr f x = Raise ValueError) /\
  (forall x : arr, tidy x -> ustr (aunit x) = s "1" -> exists z, apply_log uone ustr f (PArr x) = Ok (PArr z) /\ elementwise x z uone f) /\
  forall x : obj, well_formed x -> ustr (ounit x) = s "1" ->
    exists z, apply_log (B := B) uone ustr f (PObj x) = Ok (PObj z) /\ okind z = okind x /\ ounit z = uone /\ shape (odata z) = shape (odata x) /\ forall ix, elem (odata z) ix = f (elem (odata x) ix).
Proof.
  split; [|split].
  - intros x u E H. unfold apply_log, unit_of. rewrite E. cbn [bind]. rewrite (proj2 (str_eqb_neq _ _) H). reflexivity.
  - intros x T E. unfold apply_log. cbn [unit_of punit bind]. rewrite E, str_eqb_refl. apply apply_arr, T.
  - intros x W E. unfold apply_log. cbn [unit_of punit bind]. rewrite E, str_eqb_refl. rewrite apply_obj by exact W. eexists. split; [reflexivity|]. repeat split.
Qed.

(** ** Sums and means *)
(** along one axis: the unit and all other axes stay, the axes are as long as the
    data, and the amounts are the sums (means) of the amounts *)
Theorem C67_sum_mean (x : arr) axis k : tidy x -> 1 < length (paxes x) -> selects_axis (SInt axis) (length (paxes x)) [k] ->
  exists d zs zm, nth_error (map fst (paxes x)) k = Some d /\
    psum total (PArr x) (Axis axis None) = Ok (PArr zs) /\ reduction total x d zs /\
    pmean average (PArr x) (Axis axis None) = Ok (PArr zm) /\ reduction average x d zm /\
    (lengths_agree blen x -> lengths_agree blen zs /\ lengths_agree blen zm) /\
    forall (size : U -> Qc) c,
      (inside zs c -> exists v, axis_len (face x) d (length v) /\ amounts_along size x d c v /\ amount_at size zs c = total v) /\
      (inside zm c -> exists v, axis_len (face x) d (length v) /\ amounts_along size x d c v /\ amount_at size zm c = average v).
Proof.
  intros T L2 Sel. datum x T. assert (Dn : ndim (data dx) = length (paxes x)) by (unfold ndim; rewrite S; apply tidy_length, T).
  rewrite <- Dn in Sel. destruct (C55_sum_mean Qc total dx axis k W Sel) as ((rs & Es & Rs) & _). destruct (C55_sum_mean Qc average dx axis k W Sel) as (_ & (rm & Em & Rm) & _).
  apply norm_index_iff in Sel as (k' & [= <-] & _ & Kl). rewrite Dn in Kl.
  destruct (reduce_arr total x dx rs k T L2 E N W L V Kl Rs) as (zs & d & Fs & Ed & Hs). destruct (reduce_arr average x dx rm k T L2 E N W L V Kl Rm) as (zm & d' & Fm & Ed' & Hm).
  rewrite Ed in Ed'. injection Ed' as <-. exists d, zs, zm. split; [exact Ed|]. unfold psum, pmean, preduce. rewrite E. cbn [bind]. rewrite Es, Em. cbn [bind].
  split; [exact Fs|]. split; [exact Hs|]. split; [exact Fm|]. split; [exact Hm|]. split.
  - intros A. split; [exact (reduction_lengths blen total x zs d T Hs A)|exact (reduction_lengths blen average x zm d T Hm A)].
  - intros size c. split; intros Hc; [exact (reduction_amounts size total x zs d total_linear Hs c Hc)|exact (reduction_amounts size average x zm d average_linear Hm c Hc)].
Qed.
(** without an axis: one number, the sum or mean of all amounts *)
Lemma scalar_of q u : exists o : obj, result_num (B := B) q u = Ok (PObj o) /\ is_scalar o u q.
Proof. eexists. split; [reflexivity|]. repeat split. Qed.
Theorem C67_sum_all (x : arr) (size : U -> Qc) : tidy x ->
  exists s m, psum total (PArr x) NoAxis = Ok (PObj s) /\ pmean average (PArr x) NoAxis = Ok (PObj m) /\
    is_scalar s (aunit x) (total (all_values x)) /\ is_scalar m (aunit x) (average (all_values x)) /\
    amount size s [] = total (all_amounts size x) /\ amount size m [] = average (all_amounts size x).
Proof.
  intros T. datum x T. unfold psum, pmean, preduce. rewrite E. cbn [bind]. rewrite (flat_values x dx T N S V).
  destruct (scalar_of (total (all_values x)) (aunit x)) as (o & Eo & Ho). destruct (scalar_of (average (all_values x)) (aunit x)) as (m & Em & Hm).
  exists o, m. split; [exact Eo|]. split; [exact Em|]. split; [exact Ho|]. split; [exact Hm|].
  assert (Q : all_amounts size x = map (Qcmult (size (aunit x))) (all_values x)) by (unfold all_amounts, all_values; rewrite map_map; reflexivity).
  unfold amount. destruct Ho as (_ & _ & -> & ->). destruct Hm as (_ & _ & -> & ->). rewrite Q, total_linear, average_linear. split; reflexivity.
Qed.
(** scalars, vectors and tensors *)
Theorem C67_sum_objects (g : list Qc -> Qc) (x : obj) : exists s, psum (B := B) g (PObj x) NoAxis = Ok (PObj s) /\ pmean (B := B) g (PObj x) NoAxis = Ok (PObj s) /\
  is_scalar s (ounit x) (g (map (elem (odata x)) (indices (shape (odata x))))).
Proof.
  destruct (scalar_of (g (flat (odata x))) (ounit x)) as (o & Eo & Ho). exists o. unfold psum, pmean, preduce, obj_reduce. rewrite Eo. destruct (okind x); (split; [reflexivity|]; split; [reflexivity|exact Ho]).
Qed.
(** Refuted: [keepdims=True] keeps the whole axis beside data of length one *)
Theorem C67_keepdims_refuted (x : arr) axis k : tidy x -> selects_axis (SInt axis) (length (paxes x)) [k] -> lengths_agree blen x -> nth k (shape (data (face x))) 1 <> 1 ->
  exists z, psum total (PArr x) (Axis axis (Some true)) = Ok (PArr z) /\ paxes z = paxes x /\ nth k (shape (data (face z))) 1 = 1 /\ ~ lengths_agree blen z.
Proof.
  clear ustr upow uone ueq udiv. intros T Sel LA Ne. datum x T. assert (Dn : ndim (data dx) = length (paxes x)) by (unfold ndim; rewrite S; apply tidy_length, T).
  apply norm_index_iff in Sel as (k' & [= <-] & K & Kl). unfold psum, preduce. rewrite E. cbn [bind]. unfold array_sum. rewrite Dn, K. cbn [is_true].
  assert (An : anames dx = map fst (paxes x)) by (unfold anames; rewrite N; apply (tidy_names x T)).
  set (r := nd_reduce_keep total k (data dx)). assert (Lr : length (shape r) = length (paxes x)).
  { unfold r. cbn [nd_reduce_keep shape]. rewrite app_length. cbn [length]. rewrite firstn_length, skipn_length, S, (tidy_length x T). lia. }
  rewrite names_nodup_factory; [|rewrite An; apply tidy_nodup, T|unfold ndim; rewrite An, map_length; exact (eq_sym Lr)]. cbn [bind]. unfold with_axes. cbn [anames adims names].
  assert (Pk : pick_axes (paxes x) (map fst (paxes x)) = Ok (paxes x)).
  { unfold pick_axes. pose proof (tidy_nodup x T) as Nd. assert (G : forall l, (forall p, In p l -> In p (paxes x)) -> mapM (fun d => v <- lookup str_eqb (paxes x) d;; Ok (d, v)) (map fst l) = Ok l).
    { induction l as [|[a b] l IH]; intros H; [reflexivity|]. cbn [map mapM fst]. rewrite (proj2 (lookup_in str_eqb str_eqb_eq (paxes x) a b Nd)) by (apply H; left; reflexivity).
      cbn [bind]. rewrite IH by (intros p Hp; apply H; right; exact Hp). reflexivity. }
    apply G. auto. }
  unfold anames. cbn [adims names]. fold (anames dx). rewrite An, Pk. cbn [bind data]. unfold result_arr.
  assert (Pr : Forall (fun n => 0 < n) (shape r)).
  { unfold r. cbn [nd_reduce_keep shape]. rewrite S. apply Forall_app. assert (Pf : Forall (fun n => 0 < n) (shape (data (face x)))) by apply (proj1 T). split; [|constructor; [lia|]].
    - rewrite <- (firstn_skipn k (shape (data (face x)))) in Pf. apply Forall_app in Pf. apply Pf.
    - rewrite <- (firstn_skipn (Datatypes.S k) (shape (data (face x)))) in Pf. apply Forall_app in Pf. apply Pf. }
  destruct (factory_tidy (U := U) r (aunit x) (paxes x)) as (z & Ez & Tz & Dz & Sz & Uz & Az); [apply tidy_nodup, T|apply T|exact Lr|exact Pr|].
  rewrite Ez. exists z. split; [reflexivity|]. split; [exact Az|].
  assert (Kz : nth k (shape (data (face z))) 1 = 1).
  { rewrite Dz. unfold r. cbn [nd_reduce_keep shape]. rewrite app_nth2; rewrite firstn_length, S, (tidy_length x T), Nat.min_l by lia; [rewrite Nat.sub_diag; reflexivity|lia]. }
  split; [exact Kz|]. unfold lengths_agree in *. rewrite Az, LA. intros Q. rewrite Q in Ne. contradiction.
Qed.
(** Refuted: an explicit [axis=None], numpy's default, fails for arrays *)
Theorem C67_axis_none_refuted (x : arr) : tidy x -> psum total (PArr x) AxisNone = Raise AttributeError /\ pmean average (PArr x) AxisNone = Raise AttributeError /\ pcumsum total (PArr x) AxisNone = Raise AttributeError.
Proof. intros T. unfold psum, pmean, preduce, pcumsum. datum x T. rewrite ?E. cbn [bind]. repeat split. Qed.

(** ** Minimum and maximum *)
Theorem C67_extreme_objects (g : list Qc -> Qc) (x : obj) : exists o, pextreme (B := B) g (PObj x) NoAxis = Ok (PObj o) /\ is_scalar o (ounit x) (g (map (elem (odata x)) (indices (shape (odata x))))).
Proof.
  destruct (scalar_of (g (flat (odata x))) (ounit x)) as (o & Eo & Ho). exists o. unfold pextreme, obj_reduce. rewrite Eo. destruct (okind x); (split; [reflexivity|exact Ho]).
Qed.
(** Refuted: no array has a minimum or maximum *)
Theorem C67_extreme_arrays_refuted (g : list Qc -> Qc) (x : arr) a : pextreme g (PArr x) a = Raise TypeError.
Proof. reflexivity. Qed.
End Properties.
Print Assumptions C67_trig_radians.
Print Assumptions C67_trig_units.
Print Assumptions C67_degrees_refuted.
Print Assumptions C67_sqrt.
Print Assumptions C67_log.
Print Assumptions C67_sum_mean.
Print Assumptions C67_sum_all.
Print Assumptions C67_sum_objects.
Print Assumptions C67_keepdims_refuted.
Print Assumptions C67_axis_none_refuted.
Print Assumptions C67_extreme_objects.
Print Assumptions C67_extreme_arrays_refuted.
