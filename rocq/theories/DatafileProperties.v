(** * Properties of the interface to datafiles (C76) *)
From Verif Require Import PyBase PyLemmas ContainerModel ContainerSpec ContainerProofs ContainerProofs2 Nd ArrayModel ArraySpec PhysicalModel PhysicalSpec PhysicalProofs PhysFuncModel EpremModel AtomicModel StandardModel PhysFuncSpec PhysFuncProperties2 PhysFuncProperties4 DatafileModel DatafileSpec.
Set Default Proof Using "Type".

(** ** Views *)
Lemma file_lookup (f : datafile) n v : sound_file f -> (get_variable f n = Ok v <-> variable_of f n v).
Proof. intros (N & _). apply (lookup_in str_eqb str_decides). exact N. Qed.
Lemma file_missing (f : datafile) n e : get_variable f n = Raise e <-> e = KeyError /\ ~ In n (map fst (f_variables f)).
Proof. apply (lookup_missing str_eqb str_decides). Qed.
Lemma stated v o : stated_unit v o <-> unit_attribute v = o.
Proof.
  unfold stated_unit, unit_attribute. destruct (v_unit v) as [u|].
  - split; [intros (H & _); symmetry; apply H; reflexivity|]. intros <-. split; [intros w W; exact W|discriminate].
  - split; [intros (_ & H); symmetry; apply H; reflexivity|]. intros <-. split; [discriminate|reflexivity].
Qed.
Lemma view_map_ok {A} (get : str -> result A) reference : (forall k e, In k reference -> get k = Raise e -> e = KeyError) ->
  exists m, view_map get reference = Ok m /\ map fst m = filter (fun k => is_ok (get k)) reference /\ forall k v, In (k, v) m <-> In k reference /\ get k = Ok v.
Proof.
  intros H. unfold view_map. induction reference as [|a l IH].
  - exists []. split; [reflexivity|]. split; [reflexivity|]. intros k v. split; [intros []|intros [[] _]].
  - destruct IH as (m & E & Q & P); [intros k e I; apply H; right; exact I|]. cbn [mapM filter].
    destruct (mapM _ l) as [ps|e] eqn:M; [|discriminate]. cbn [bind] in E. inversion E as [E']. destruct (get a) as [v|e] eqn:G.
    + exists ((a, v) :: m). split; [cbn [bind concat app]; rewrite E'; reflexivity|]. split; [cbn [map fst is_ok]; rewrite Q; reflexivity|]. intros k w. cbn [In]. rewrite P. split.
      * intros [X|[X Y]]; [inversion X; subst; auto|auto].
      * intros [[->|X] Y]; [left; congruence|right; auto].
    + rewrite (H a e (or_introl eq_refl) G). exists m. split; [cbn [bind concat app]; rewrite E'; reflexivity|]. split; [exact Q|]. intros k w. cbn [In]. rewrite P. split; [tauto|].
      intros [[->|X] Y]; [congruence|auto].
Qed.
Lemma nodup_filter {A} (p : A -> bool) l : NoDup l -> NoDup (filter p l).
Proof. induction 1 as [|a l H N IH]; cbn [filter]; [constructor|]. destruct (p a); [constructor; [rewrite filter_In; tauto|exact IH]|exact IH]. Qed.
Lemma view_lookup {A} (get : str -> result A) reference m n : NoDup reference -> (forall k e, In k reference -> get k = Raise e -> e = KeyError) -> view_map get reference = Ok m ->
  lookup str_eqb m n = if existsb (str_eqb n) reference then get n else Raise KeyError.
Proof.
  intros N H V. destruct (view_map_ok get reference H) as (m' & V' & Q & P). rewrite V in V'. injection V' as <-.
  assert (D : NoDup (map fst m)) by (rewrite Q; apply nodup_filter, N).
  destruct (existsb (str_eqb n) reference) eqn:X.
  - apply existsb_exists in X as (k & I & E). apply str_eqb_eq in E. subst k. destruct (get n) as [v|e] eqn:G.
    + apply (lookup_in str_eqb str_decides); [exact D|]. apply P. tauto.
    + rewrite (H n e I G). apply (lookup_missing str_eqb str_decides). split; [reflexivity|]. intros J. apply in_map_iff in J as ((k & v) & <- & J). apply P in J as (_ & J). cbn [fst] in G. congruence.
  - apply (lookup_missing str_eqb str_decides). split; [reflexivity|]. intros J. apply in_map_iff in J as ((k & v) & <- & J). apply P in J as (J & _).
    cbn [fst] in X. rewrite (proj2 (existsb_exists _ _)) in X; [discriminate X|]. exists k. split; [exact J|apply str_eqb_refl].
Qed.
Lemma arrays_names : ARRAYS = array_names. Proof. reflexivity. Qed.
Lemma array_names_nodup : NoDup array_names.
Proof. repeat (constructor; [apply (mem_false str_eqb str_decides); vm_compute; reflexivity|]). constructor. Qed.
Lemma get_array_eq f n : get_array f n = match get_variable f n with Ok v => Ok (mkfarray (v_data v) (unit_attribute v) (v_dims v)) | Raise e => Raise e end.
Proof. unfold get_array, get_unit. destruct (get_variable f n); reflexivity. Qed.
Lemma get_array_error f n e : get_array f n = Raise e -> e = KeyError.
Proof. rewrite get_array_eq. destruct (get_variable f n) eqn:G; intros E; [discriminate E|]. injection E as <-. apply file_missing in G. tauto. Qed.
Lemma get_array_read f n a : sound_file f -> (get_array f n = Ok a <-> read_array f n a).
Proof.
  intros S. rewrite get_array_eq. unfold read_array. split.
  - destruct (get_variable f n) as [v|] eqn:G; [|discriminate]. intros E. injection E as <-. exists v. cbn [fa_data fa_dims fa_unit]. split; [apply file_lookup; assumption|]. repeat split; apply stated; reflexivity.
  - intros (v & V & D & M & T). apply (file_lookup f n v S) in V. rewrite V. apply stated in T. destruct a as [d u m]. cbn in *. subst. reflexivity.
Qed.

(** The view of the arrays of a file: exactly the variables with the names of
    arrays, in the order of the reference, as they are in the file. *)
Theorem C76_arrays_view f : sound_file f -> exists l, view_arrays f = Ok l /\
  map fst l = filter (fun n => existsb (str_eqb n) (map fst (f_variables f))) array_names /\
  forall n a, In (n, a) l <-> In n array_names /\ read_array f n a.
Proof.
  intros S. destruct (view_map_ok (get_array f) ARRAYS) as (l & V & Q & P); [intros k e _; apply get_array_error|]. exists l. split; [exact V|]. split.
  - rewrite Q. apply filter_ext. intros n. rewrite get_array_eq. destruct (get_variable f n) as [v|e] eqn:G; cbn [is_ok].
    + apply (file_lookup f n v S) in G. symmetry. apply existsb_exists. exists n. split; [exact (in_map fst _ _ G)|apply str_eqb_refl].
    + apply file_missing in G as (_ & G). destruct (existsb _ _) eqn:X; [|reflexivity]. apply existsb_exists in X as (k & I & E). apply str_eqb_eq in E. subst k. contradiction.
  - intros n a. rewrite P, get_array_read by exact S. rewrite arrays_names. reflexivity.
Qed.
(** The view of the scalars: a number, an integer for integer variables; a
    variable that is not a single number makes the whole view fail. *)
Theorem C76_scalars_view f v : sound_file f -> 
  (~ In (s "preEruption") (map fst (f_variables f)) -> view_scalars f = Ok []) /\
  (variable_of f (s "preEruption") v -> shape (v_data v) = [] -> exists x, view_scalars f = Ok [(s "preEruption", x)] /\
     stated_unit v (fs_unit x) /\ fs_value x = if v_int v then zq (py_int (elem (v_data v) [])) else elem (v_data v) []) /\
  (variable_of f (s "preEruption") v -> shape (v_data v) <> [] -> view_scalars f = Raise TypeError).
Proof.
  intros S. unfold view_scalars, SCALARS, view_map, get_scalar, get_unit. cbn [mapM]. repeat split.
  - intros M. rewrite (proj2 (file_missing f (s "preEruption") KeyError)) by tauto. reflexivity.
  - intros V D. apply (file_lookup f _ v S) in V. rewrite V. cbn [bind]. rewrite D. cbn [bind concat app]. eexists. split; [reflexivity|]. cbn [fs_unit fs_value]. split; [apply stated; reflexivity|reflexivity].
  - intros V D. apply (file_lookup f _ v S) in V. rewrite V. cbn [bind]. destruct (shape (v_data v)); [contradiction|reflexivity].
Qed.
(** The sizes of the axes: those of the dimensions of the file with the names of axes *)
Theorem C76_sizes f : sound_file f -> exists l, view_sizes f = Ok l /\ view_axes f = Ok l /\
  forall n k, In (n, k) l <-> In n axis_names /\ In (n, k) (f_dimensions f).
Proof.
  intros (_ & S). destruct (view_map_ok (get_axis f) AXES) as (l & V & Q & P).
  { intros k e _ G. apply (lookup_missing str_eqb str_decides) in G. tauto. }
  exists l. split; [exact V|]. split; [exact V|]. intros n k. rewrite P. unfold get_axis. rewrite (lookup_in str_eqb str_decides) by exact S. reflexivity.
Qed.
(** The units: those of the arrays and scalars of the file that state one *)
Lemma with_value_in {A} (l : list (str * option A)) n x : In (n, x) (with_value l) <-> In (n, Some x) l.
Proof.
  induction l as [|(k & [w|]) l IH]; cbn [with_value In]; [tauto| |].
  - rewrite IH. split; intros [E|I]; [injection E as <- <-; left; reflexivity|tauto|injection E as <- <-; left; reflexivity|tauto].
  - rewrite IH. split; [tauto|]. intros [E|I]; [discriminate E|exact I].
Qed.
Theorem C76_units f : sound_file f -> exists l, view_units f = Ok l /\
  forall n t, In (n, t) l <-> In n (array_names ++ scalar_names) /\ exists v, variable_of f n v /\ stated_unit v (Some t).
Proof.
  intros S. destruct (view_map_ok (get_unit f) (ARRAYS ++ SCALARS)) as (l & V & Q & P).
  { intros k e _ G. unfold get_unit in G. destruct (get_variable f k) eqn:X; cbn [bind] in G; [discriminate G|]. injection G as <-. apply file_missing in X. tauto. }
  exists (with_value l). unfold view_units. rewrite V. split; [reflexivity|]. intros n t. rewrite with_value_in, P. change (ARRAYS ++ SCALARS) with (array_names ++ scalar_names).
  unfold get_unit. split; intros (I & H); (split; [exact I|]).
  - destruct (get_variable f n) as [v|] eqn:X; cbn [bind] in H; [|discriminate H]. exists v. split; [apply file_lookup; assumption|]. apply stated. congruence.
  - destruct H as (v & X & T). apply (file_lookup f n v S) in X. rewrite X. cbn [bind]. apply stated in T. rewrite T. reflexivity.
Qed.
(** The viewer: by the suffix of the file name; the hint only counts for files
    with another suffix, and only its documented spellings are understood. *)
Theorem C76_viewer name hint :
  (suffix name = s ".nc" -> choose_viewer name hint = Ok NetCDF) /\
  (In (suffix name) [s ".nc"; s "netcdf"; s "NetCDF"; s "NETCDF"] \/ (exists h, hint = Some h /\ In h [s ".nc"; s "netcdf"; s "NetCDF"; s "NETCDF"]) <-> choose_viewer name hint = Ok NetCDF) /\
  forall e, choose_viewer name hint = Raise e -> e = TypeError.
Proof.
  assert (V : forall x, (In x [s ".nc"; s "netcdf"; s "NetCDF"; s "NETCDF"] /\ VIEWERS x = Some NetCDF) \/ (~ In x [s ".nc"; s "netcdf"; s "NetCDF"; s "NETCDF"] /\ VIEWERS x = None)).
  { intros x. unfold VIEWERS. cbn [map existsb]. destruct (existsb (str_eqb x) [s ".nc"; s "netcdf"; s "NetCDF"; s "NETCDF"]) eqn:X; cbn [existsb] in X; rewrite X.
    - left. split; [|reflexivity]. change (existsb (str_eqb x) [s ".nc"; s "netcdf"; s "NetCDF"; s "NETCDF"] = true) in X. apply existsb_exists in X as (y & I & E). apply str_eqb_eq in E. subst y. exact I.
    - right. split; [|reflexivity]. intros I. change (existsb (str_eqb x) [s ".nc"; s "netcdf"; s "NetCDF"; s "NETCDF"] = false) in X. rewrite (proj2 (existsb_exists _ _)) in X; [discriminate X|]. exists x. split; [exact I|apply str_eqb_refl]. }
  unfold choose_viewer. split; [|split].
  - intros ->. reflexivity.
  - destruct (V (suffix name)) as [(I & ->)|(I & ->)]; [tauto|]. destruct hint as [h|].
    + destruct (V h) as [(J & ->)|(J & ->)].
      * split; [reflexivity|]. intros _. right. exists h. tauto.
      * split; [|discriminate]. intros [K|(h' & E & K)]; [contradiction|]. injection E as <-. contradiction.
    + split; [|discriminate]. intros [K|(h' & E & K)]; [contradiction|discriminate E].
  - intros e. destruct (VIEWERS (suffix name)); [discriminate|]. destruct hint as [h|]; [destruct (VIEWERS h)|]; congruence.
Qed.
Print Assumptions C76_arrays_view.
Print Assumptions C76_scalars_view.
Print Assumptions C76_sizes.
Print Assumptions C76_units.
Print Assumptions C76_viewer.

(** ** Arrays in a metric system *)
Section Arrays.
Context {U : Type}.
Variables (ueq : U -> U -> bool) (munit : str -> result U) (conversion : U -> str -> result (U * U * Qc)).
Variables (system mass_unit charge_unit : str).
Variable f : datafile.
Hypothesis sound : sound_file f.
Notation create := (arrays_create ueq munit conversion system f).
Notation axis := (axis_of ueq munit conversion system f).
Notation arr := (parr (U := U) (B := faxis)).

Lemma arrays_lookup n l : view_arrays f = Ok l -> lookup str_eqb l n = if existsb (str_eqb n) array_names then get_array f n else Raise KeyError.
Proof. intros V. apply (view_lookup (get_array f) ARRAYS l n); [rewrite arrays_names; exact array_names_nodup|intros k e _; apply get_array_error|exact V]. Qed.
Lemma arrays_view_ok : exists l, view_arrays f = Ok l.
Proof. destruct (view_map_ok (get_array f) ARRAYS) as (l & V & _); [intros k e _; apply get_array_error|]. exists l. exact V. Qed.
Lemma member n (l : list str) : In n l -> existsb (str_eqb n) l = true.
Proof. intros I. apply existsb_exists. exists n. split; [exact I|apply str_eqb_refl]. Qed.

(** the unit of a variable in the unit system of the metric package, and what
    the conversion to [target] makes of it: the new unit and the factor *)
Definition unit_in_file (v : variable) (u : U) : Prop :=
  exists t text, stated_unit v (Some t) /\ standardize (Some t) = Ok text /\ text <> [] /\ munit text = Ok u.
Definition becomes (u : U) (target : str) (new : U) (k : Qc) : Prop :=
  exists a b w, conversion u target = Ok (a, b, w) /\
    (ueq a b = true -> new = u /\ k = 1%Qc) /\ (ueq a b = false -> new = b /\ k = w).

Lemma context_plain text u : text <> [] -> munit text = Ok u -> context_unit munit text = Ok u.
Proof. intros N E. unfold context_unit. destruct text; [contradiction|]. rewrite E. reflexivity. Qed.
Lemma array_to_ok (x : arr) target new k : tidy x -> scale x = 1%Qc -> becomes (aunit x) target new k ->
  exists y, array_to ueq conversion x target = Ok y /\ tidy y /\ data (face y) = data (face x) /\ scale y = k /\ aunit y = new /\ paxes y = paxes x.
Proof.
  intros T S1 (a & b & w & C & E & N). unfold array_to. rewrite C. cbn [bind]. destruct (ueq a b) eqn:Q.
  - destruct (E eq_refl) as (-> & ->). exists x. repeat (split; [first [reflexivity|exact T|exact S1]|]). reflexivity.
  - destruct (N eq_refl) as (-> & ->). destruct (factory_tidy (data (face x)) b (paxes x)) as (r & F & Tr & Dr & Sr & Ur & Pr).
    + apply tidy_nodup, T.
    + apply T.
    + apply tidy_length, T.
    + apply T.
    + rewrite F. cbn [bind]. eexists. split; [reflexivity|]. cbn [face scale aunit paxes]. destruct Tr as (T1 & T2 & T3).
      split; [split; [exact T1|split; [exact T2|exact T3]]|]. repeat split; assumption.
Qed.
Lemma in_nth {A} (l : list A) x : In x l -> exists i, nth_error l i = Some x.
Proof. apply In_nth_error. Qed.
Lemma mapM_axes ds axes : Forall2 (fun d a => axis d = Ok a) ds axes -> mapM (fun d => a <- axis d ;; Ok (d, a)) ds = Ok (combine ds axes).
Proof. induction 1 as [|d a ds axes E H IH]; cbn [mapM combine]; [reflexivity|]. rewrite E. cbn [bind]. rewrite IH. reflexivity. Qed.
Lemma combine_fst {A B} (l : list A) : forall (r : list B), length l = length r -> map fst (combine l r) = l.
Proof. induction l as [|a l IH]; intros [|b r]; cbn; intros E; try discriminate E; [reflexivity|]. rewrite IH by (injection E as E; exact E). reflexivity. Qed.

Lemma within_fits (c : coords) : forall l sh, length sh = length l ->
  ((forall d n, (exists k, nth_error l k = Some d /\ nth_error sh k = Some n) -> c d < n) <-> Forall2 (fun (d : str) n => c d < n) l sh).
Proof.
  clear. induction l as [|d l IH]; intros [|n sh] L; cbn in L; try discriminate L.
  - split; [constructor|]. intros _ d n (k & E & _). destruct k; discriminate E.
  - injection L as L. split.
    + intros H. constructor; [apply H; exists 0; split; reflexivity|]. apply (IH sh L). intros d' n' (k & E1 & E2). apply H. exists (Datatypes.S k). split; assumption.
    + intros H d' n' (k & E1 & E2). inversion H as [|d0 n0 l0 sh0 H1 H2]. subst. destruct k as [|k]; cbn in E1, E2; [congruence|]. apply (proj2 (IH sh L) H2). exists k. split; assumption.
Qed.

(** Reading a variable of the file: if its data fit its dimensions, every
    dimension has an axis, its unit is known and can be converted, then the array
    has those axes in the order of the dimensions, the converted unit, and every
    number is the one in the file times the factor of the conversion. *)
Theorem C76_array n unit v u axes new k : In n array_names -> variable_of f n v -> fits v -> unit_in_file v u ->
  Forall2 (fun d a => axis d = Ok a) (v_dims v) axes -> becomes u (match unit with Some t => t | None => system end) new k ->
  exists x, create n unit = Ok x /\ reads x v axes new k.
Proof using sound.
  intros I V (N & Ne & L & P) (t & text & T & St & Tn & M) A B. unfold arrays_create.
  destruct arrays_view_ok as (l & W). rewrite W. cbn [bind]. rewrite (arrays_lookup n l W), (member n _ I), get_array_eq.
  rewrite (proj2 (file_lookup f n v sound) V). cbn [bind fa_dims fa_unit fa_data].
  rewrite (mapM_axes _ _ A). cbn [bind]. apply stated in T. rewrite T, St. cbn [bind]. rewrite (context_plain text u Tn M). cbn [bind].
  assert (LA : length (v_dims v) = length axes) by (clear - A; induction A; cbn; congruence).
  assert (Fs : map fst (combine (v_dims v) axes) = v_dims v) by (apply combine_fst; exact LA).
  rewrite (dict_of_nodup str_eqb str_decides) by (rewrite Fs; exact N).
  destruct (factory_tidy (v_data v) u (combine (v_dims v) axes)) as (x & F & Tx & Dx & Sx & Ux & Px).
  - rewrite Fs. exact N.
  - intros Z. rewrite Z in Fs. cbn in Fs. congruence.
  - rewrite <- (map_length fst), Fs. exact L.
  - exact P.
  - rewrite F. cbn [bind]. rewrite <- Ux in B. destruct (array_to_ok x _ new k Tx Sx B) as (y & Y & Ty & Dy & Sy & Uy & Py).
    exists y. split; [exact Y|]. split; [exact Ty|]. split; [congruence|]. split; [exact Uy|]. split; [congruence|].
    assert (An : anames (face y) = v_dims v). { destruct Ty as (_ & An & _). unfold anames. rewrite An. cbn [names]. rewrite Py, Px. exact Fs. }
    split.
    + intros c. unfold inside, within, axis_len, within_variable. rewrite An, Dy, Dx. apply (within_fits c). exact L.
    + intros c _. unfold value_at, at_, in_file. rewrite An, Dy, Dx, Sy. reflexivity.
Qed.
(** A variable that the file does not have: a KeyError. *)
Theorem C76_missing n unit : ~ In n (map fst (f_variables f)) -> create n unit = Raise KeyError.
Proof using sound.
  intros M. unfold arrays_create. destruct arrays_view_ok as (l & W). rewrite W. cbn [bind]. rewrite (arrays_lookup n l W).
  destruct (existsb (str_eqb n) array_names); [|reflexivity]. rewrite get_array_eq, (proj2 (file_missing f n KeyError)) by tauto. reflexivity.
Qed.
(** A variable without a unit, or with a unit that is not known: a TypeError. *)
Theorem C76_no_unit n unit v axes : In n array_names -> variable_of f n v -> Forall2 (fun d a => axis d = Ok a) (v_dims v) axes ->
  (v_unit v = None -> v_units v = None -> create n unit = Raise TypeError) /\
  (forall t text, stated_unit v (Some t) -> standardize (Some t) = Ok text -> text <> [] -> munit text = Raise ValueError -> create n unit = Raise TypeError).
Proof using sound.
  intros I V A. unfold arrays_create. destruct arrays_view_ok as (l & W). rewrite W. cbn [bind]. rewrite (arrays_lookup n l W), (member n _ I), get_array_eq.
  rewrite (proj2 (file_lookup f n v sound) V). cbn [bind fa_dims fa_unit fa_data]. rewrite (mapM_axes _ _ A). cbn [bind]. split.
  - intros E1 E2. unfold unit_attribute. rewrite E1, E2. reflexivity.
  - intros t text T St Tn M. apply stated in T. rewrite T, St. cbn [bind]. unfold context_unit. destruct text; [contradiction|]. rewrite M. reflexivity.
Qed.

(** The properties of the arrays read the variables behind them; the grid shows
    the coordinates of the arrays. *)
Notation whole := (whole_array ueq munit conversion system f).
Lemma whole_eq p n : In (p, n) variable_behind -> whole p = create n None.
Proof.
  intros I. unfold whole_array. assert (N : NoDup (map fst whole_arrays)). { repeat (constructor; [apply (mem_false str_eqb str_decides); vm_compute; reflexivity|]). constructor. }
  rewrite (proj2 (lookup_in str_eqb str_decides whole_arrays p n N)); [reflexivity|exact I].
Qed.
Lemma behind_names p n : In (p, n) variable_behind -> In n array_names.
Proof.
  intros I. assert (B : forallb (fun pn => mem str_eqb (snd pn) array_names) variable_behind = true) by (vm_compute; reflexivity).
  rewrite forallb_forall in B. specialize (B _ I). apply (mem_spec str_eqb str_decides) in B. exact B.
Qed.
Theorem C76_properties p n : In (p, n) variable_behind ->
  (~ In n (map fst (f_variables f)) -> whole p = Raise KeyError) /\
  forall v u axes new k, variable_of f n v -> fits v -> unit_in_file v u -> Forall2 (fun d a => axis d = Ok a) (v_dims v) axes -> becomes u system new k ->
    exists x, whole p = Ok x /\ reads x v axes new k.
Proof using sound.
  intros I. rewrite (whole_eq p n I). split; [intros M; apply C76_missing; exact M|]. intros v u axes new k V F T A B.
  exact (C76_array n None v u axes new k (behind_names p n I) V F T A B).
Qed.
(** Mass and charge are in the units of mass and charge of the metric system. *)
Theorem C76_mass_charge n text v u axes new k : (n = s "mass" /\ text = mass_unit) \/ (n = s "charge" /\ text = charge_unit) ->
  variable_of f n v -> fits v -> unit_in_file v u -> Forall2 (fun d a => axis d = Ok a) (v_dims v) axes -> becomes u text new k ->
  exists x, (if str_eqb n (s "mass") then arr_mass ueq munit conversion system (mkunittexts mass_unit charge_unit) f else arr_charge ueq munit conversion system (mkunittexts mass_unit charge_unit) f) = Ok x /\ reads x v axes new k.
Proof using sound.
  intros [(-> & ->)|(-> & ->)] V F T A B; cbn [str_eqb].
  - exact (C76_array (s "mass") (Some mass_unit) v u axes new k (proj1 (mem_spec str_eqb str_decides (s "mass") array_names) eq_refl) V F T A B).
  - exact (C76_array (s "charge") (Some charge_unit) v u axes new k (proj1 (mem_spec str_eqb str_decides (s "charge") array_names) eq_refl) V F T A B).
Qed.
Theorem C76_grid : grid_r ueq munit conversion system f = whole (s "r") /\ grid_theta ueq munit conversion system f = whole (s "theta") /\
  grid_phi ueq munit conversion system f = whole (s "phi").
Proof. repeat split; reflexivity. Qed.
(** Energies and speeds: without the axes of length one; everywhere the number of
    the file times the factor. *)
Theorem C76_squeezed n v u axes new k m : (n = s "egrid" \/ n = s "vgrid") -> variable_of f n v -> fits v -> unit_in_file v u ->
  Forall2 (fun d a => axis d = Ok a) (v_dims v) axes -> becomes u system new k -> In m (shape (v_data v)) -> m <> 1 ->
  exists z, (if str_eqb n (s "egrid") then arr_energy ueq munit conversion system f else arr_v ueq munit conversion system f) = Ok (PArr z) /\ tidy z /\ aunit z = new /\
    (forall d a, In (d, a) (paxes z) -> In (d, a) (combine (v_dims v) axes)) /\ subseq (map fst (paxes z)) (v_dims v) /\
    (forall d l, axis_len (face z) d l <-> (exists i, nth_error (v_dims v) i = Some d /\ nth_error (shape (v_data v)) i = Some l) /\ l <> 1) /\
    forall c, within_variable v c -> value_at z c = (k * in_file v c)%Qc.
Proof using sound.
  intros E V F T A B I M.
  assert (J : In n array_names) by (destruct E as [-> | ->]; apply (mem_spec str_eqb str_decides); vm_compute; reflexivity).
  destruct (C76_array n None v u axes new k J V F T A B) as (x & X & Tx & Px & Ux & Shx & Ix & Vx).
  assert (LA : length (v_dims v) = length axes) by (clear - A; induction A; cbn; congruence).
  assert (An : anames (face x) = v_dims v). { destruct Tx as (_ & An & _). unfold anames. rewrite An. cbn [names]. rewrite Px. apply combine_fst. exact LA. }
  destruct (C67_squeeze (fun _ => 0) x Tx) as (_ & Q). destruct Q as (z & Z & Tz & Uz & Fz & Sz & Lz & _ & Vz).
  { intros Sg. unfold singleton in Sg. rewrite Shx in Sg. exact (M (proj1 (Forall_forall _ _) Sg m I)). }
  exists z. split.
  - destruct E as [-> | ->].
    + change (str_eqb (s "egrid") (s "egrid")) with true. cbv iota. unfold arr_energy, squeezed_array. rewrite X. exact Z.
    + change (str_eqb (s "vgrid") (s "egrid")) with false. cbv iota. unfold arr_v, squeezed_array. rewrite X. exact Z.
  - split; [exact Tz|]. split; [congruence|]. split; [intros d a Ia; rewrite <- Px; apply Fz; exact Ia|]. split.
    + rewrite Px, combine_fst in Sz by exact LA. exact Sz.
    + split; [intros d l; rewrite Lz; unfold axis_len; rewrite An, Shx; reflexivity|]. intros c C. rewrite Vz by (apply Ix; exact C). apply Vx. exact C.
Qed.
(** Distribution and flux: exactly one of them is there; the flux if the file
    has it, else the distribution.  [hasdist] and [hasflux] tell which variables
    the file has. *)
Lemma has_variable n : In n array_names -> forall l, view_arrays f = Ok l -> (is_ok (lookup str_eqb l n) = true <-> In n (map fst (f_variables f))).
Proof using sound.
  intros I l W. rewrite (arrays_lookup n l W), (member n _ I), get_array_eq. destruct (get_variable f n) as [v|e] eqn:G; cbn [is_ok].
  - apply (file_lookup f n v sound) in G. split; [|reflexivity]. intros _. exact (in_map fst _ _ G).
  - apply file_missing in G as (_ & G). split; [intros X; discriminate X|intros J; destruct (G J)].
Qed.
Theorem C76_distribution : exists d h, hasdist f = Ok d /\ hasflux f = Ok h /\
  (d = true <-> In (s "Dist") (map fst (f_variables f))) /\ (h = true <-> In (s "flux") (map fst (f_variables f))) /\
  (h = true -> arr_f ueq munit conversion system f = Ok None /\ arr_flux ueq munit conversion system f = (x <- create (s "flux") None ;; Ok (Some x))) /\
  (h = false -> arr_flux ueq munit conversion system f = Ok None /\ arr_f ueq munit conversion system f = (x <- create (s "Dist") None ;; Ok (Some x))).
Proof using sound.
  unfold hasdist, arr_f, arr_flux, hasflux. destruct arrays_view_ok as (l & W). rewrite W. cbn [bind]. do 2 eexists. split; [reflexivity|]. split; [reflexivity|].
  split; [apply (has_variable (s "Dist")); [apply (mem_spec str_eqb str_decides); vm_compute; reflexivity|exact W]|].
  split; [apply (has_variable (s "flux")); [apply (mem_spec str_eqb str_decides); vm_compute; reflexivity|exact W]|].
  split; intros E; rewrite E; split; reflexivity.
Qed.

(** ** Axes *)
Notation acreate := (axes_create ueq munit conversion system f).
Lemma tensor_to_ok d u target new k : shape d <> [] -> becomes u target new k ->
  exists y, tensor_to ueq conversion (mkobj KTensor d u) target = Ok y /\ okind y = KTensor /\ shape (odata y) = shape d /\ ounit y = new /\
    forall ix, elem (odata y) ix = (k * elem d ix)%Qc.
Proof.
  intros N (a & b & w & C & E & Q). unfold tensor_to. cbn [ounit okind odata]. rewrite C. cbn [bind]. destruct (ueq a b) eqn:X.
  - destruct (E eq_refl) as (-> & ->). eexists. split; [reflexivity|]. cbn. repeat split. intros ix. ring.
  - destruct (Q eq_refl) as (-> & ->). unfold build. unfold ndim. cbn [nd_map shape]. destruct (shape d) eqn:Sd; [contradiction|]. cbn [length Nat.eqb].
    eexists. split; [reflexivity|]. cbn [okind odata ounit nd_map shape elem]. repeat split. exact Sd.
Qed.
Lemma axes_create_ok n unit v u new k : In n array_names -> variable_of f n v -> shape (v_data v) <> [] -> unit_in_file v u ->
  becomes u (match unit with Some t => t | None => system end) new k ->
  exists y, acreate n unit = Ok y /\ okind y = KTensor /\ shape (odata y) = shape (v_data v) /\ ounit y = new /\ forall ix, elem (odata y) ix = (k * elem (v_data v) ix)%Qc.
Proof using sound.
  intros I V Ne (t & text & T & St & Tn & M) B. unfold axes_create. destruct arrays_view_ok as (l & W). rewrite W. cbn [bind]. rewrite (arrays_lookup n l W), (member n _ I), get_array_eq.
  rewrite (proj2 (file_lookup f n v sound) V). cbn [bind fa_dims fa_unit fa_data]. apply stated in T. rewrite T, St. cbn [bind]. rewrite (context_plain text u Tn M). cbn [bind].
  unfold build, ndim. destruct (shape (v_data v)) as [|m r] eqn:Sd; [contradiction|]. cbn [length Nat.eqb bind]. rewrite <- Sd.
  apply tensor_to_ok; [rewrite Sd; discriminate|exact B].
Qed.

(** Times and pitch-angle cosines: the numbers of the file, converted. *)
Theorem C76_coordinate_axes n v u new k : In n [s "time"; s "mu"] -> variable_of f n v -> shape (v_data v) <> [] -> unit_in_file v u -> becomes u system new k ->
  exists d, axis n = Ok (FCoords d new) /\ shape d = shape (v_data v) /\ forall ix, elem d ix = (k * elem (v_data v) ix)%Qc.
Proof using sound.
  intros I V Ne T B. assert (J : In n array_names). { destruct I as [<-|[<-|[]]]; apply (mem_spec str_eqb str_decides); vm_compute; reflexivity. }
  destruct (axes_create_ok n None v u new k J V Ne T B) as (y & Y & _ & Sy & Uy & Ey). exists (odata y). split; [|split; [exact Sy|exact Ey]].
  unfold axis_of. destruct I as [<-|[<-|[]]]; cbn [str_eqb]; rewrite Y; cbn [bind coordinates]; rewrite Uy; reflexivity.
Qed.
(** The shells: the numbers of the file as integers; negative ones are refused. *)
Theorem C76_shell_axis v n : variable_of f (s "shell") v -> shape (v_data v) = [n] ->
  ((forall i, i < n -> (0 <= py_int (elem (v_data v) [i]))%Z) -> axis (s "shell") = Ok (FPoints (map (fun i => py_int (elem (v_data v) [i])) (seq 0 n)))) /\
  (forall i, i < n -> (py_int (elem (v_data v) [i]) < 0)%Z -> axis (s "shell") = Raise TypeError).
Proof using sound.
  intros V Sh. assert (E : axis (s "shell") = points (v_data v)).
  { unfold axis_of. cbn [str_eqb]. destruct arrays_view_ok as (l & W). rewrite W. cbn [bind]. rewrite (arrays_lookup _ l W). rewrite (member (s "shell") array_names) by (apply (mem_spec str_eqb str_decides); vm_compute; reflexivity).
    rewrite get_array_eq, (proj2 (file_lookup f _ v sound) V). reflexivity. }
  rewrite E. unfold points, ndim, flat. rewrite Sh. cbn [length Nat.ltb Nat.leb]. change (indices [n]) with (flat_map (fun i => map (cons i) [[]]) (seq 0 n)).
  assert (Fl : map py_int (map (elem (v_data v)) (flat_map (fun i => map (cons i) [[]]) (seq 0 n))) = map (fun i => py_int (elem (v_data v) [i])) (seq 0 n)).
  { rewrite map_map. generalize (seq 0 n). clear. induction l as [|i l IH]; [reflexivity|]. cbn [flat_map map app]. rewrite <- IH. reflexivity. }
  rewrite Fl. split.
  - intros P. destruct (existsb _ _) eqn:X; [|reflexivity]. apply existsb_exists in X as (z & I & Z). apply in_map_iff in I as (i & <- & I). apply in_seq in I. apply Z.ltb_lt in Z. specialize (P i (proj2 I)). exfalso. clear - P Z. lia.
  - intros i Hi Z. rewrite (proj2 (existsb_exists _ _)); [reflexivity|]. eexists. split; [apply in_map_iff; exists i; split; [reflexivity|apply in_seq]|apply Z.ltb_lt; exact Z]. clear - Hi. lia.
Qed.
(** The species: the symbols of the elements with those masses (in nucleons) and
    charges (in elementary charges), one per species. *)
Lemma flat_line (d : nd Qc) n : shape d = [n] -> flat d = map (fun i => elem d [i]) (seq 0 n).
Proof. clear. intros Sh. unfold flat. rewrite Sh. change (indices [n]) with (flat_map (fun i => map (cons i) [[]]) (seq 0 n)). generalize (seq 0 n). induction l as [|i l IH]; [reflexivity|]. cbn [flat_map map app]. rewrite <- IH. reflexivity. Qed.
Theorem C76_species_axis n vm um km vc uc kc wm wc : variable_of f (s "mass") vm -> unit_in_file vm um -> becomes um (s "nuc") wm km -> shape (v_data vm) = [n] ->
  variable_of f (s "charge") vc -> unit_in_file vc uc -> becomes uc (s "e") wc kc -> shape (v_data vc) = [n] ->
  axis (s "species") = (l <- elements (map (fun i => (km * elem (v_data vm) [i])%Qc) (seq 0 n)) (map (fun i => (kc * elem (v_data vc) [i])%Qc) (seq 0 n)) ;; Ok (FSymbols l)).
Proof using sound.
  intros Vm Tm Bm Sm Vc Tc Bc Sc. unfold axis_of. cbn [str_eqb]. unfold species_symbols.
  destruct (axes_create_ok (s "mass") (Some (s "nuc")) vm um wm km) as (m & -> & _ & Hm & _ & Em); [apply (mem_spec str_eqb str_decides); vm_compute; reflexivity|exact Vm|rewrite Sm; discriminate|exact Tm|exact Bm|].
  destruct (axes_create_ok (s "charge") (Some (s "e")) vc uc wc kc) as (c & -> & _ & Hc & _ & Ec); [apply (mem_spec str_eqb str_decides); vm_compute; reflexivity|exact Vc|rewrite Sc; discriminate|exact Tc|exact Bc|].
  cbn [bind]. unfold numbers, ndim. rewrite Hm, Hc, Sm, Sc. cbn [length Nat.eqb bind].
  rewrite (flat_line (odata m) n), (flat_line (odata c) n) by congruence. 
  rewrite (map_ext _ _ (fun i => Em [i])), (map_ext _ _ (fun i => Ec [i])). reflexivity.
Qed.
Lemma all_ones sh c c' : squeezed_at sh c c' -> Forall (fun n => n = 1) sh -> c = map (fun _ => 0) sh /\ c' = [].
Proof.
  clear. induction 1 as [|sh c c' H IH|n i sh c c' Hn Hi H IH]; intros F; [split; reflexivity| |].
  - inversion F as [|x l F1 F2]. destruct (IH F2) as (-> & ->). split; reflexivity.
  - inversion F as [|x l F1 F2]. contradiction.
Qed.
(** The energies: the numbers of the file, converted, without axes of length one. *)
Theorem C76_energy_axis v u new k : variable_of f (s "egrid") v -> shape (v_data v) <> [] -> unit_in_file v u -> becomes u system new k ->
  exists d, axis (s "energy") = Ok (FCoords d new) /\ shape d = filter (fun n => negb (Nat.eqb n 1)) (shape (v_data v)) /\
    forall c c', squeezed_at (shape (v_data v)) c c' -> elem d c' = (k * elem (v_data v) c)%Qc.
Proof using sound.
  intros V Ne T B. destruct (axes_create_ok (s "egrid") None v u new k) as (y & Y & Ky & Sy & Uy & Ey); [apply (mem_spec str_eqb str_decides); vm_compute; reflexivity|exact V|exact Ne|exact T|exact B|].
  unfold axis_of. cbn [str_eqb]. rewrite Y. cbn [bind]. destruct (C67_squeeze_objects (B := faxis (U := U)) y) as (_ & O & N).
  { unfold well_formed. rewrite Ky, Sy. exact Ne. }
  rewrite Ky in O, N. destruct (Forall_dec (fun n => n = 1) (fun n => Nat.eq_dec n 1) (shape (odata y))) as [D|D].
  - destruct (O ltac:(discriminate) D) as (o & P & _ & S1 & U1 & E1). rewrite P. cbn [bind coordinates]. rewrite Sy in *. exists (odata o). rewrite U1, Uy. split; [reflexivity|].
    split; [rewrite S1; symmetry; apply filter_ones; exact D|]. intros c c' H. destruct (all_ones _ _ _ H D) as (-> & ->). rewrite E1. apply Ey.
  - destruct (N ltac:(discriminate) D) as (z & P & Kz & Uz & _ & Sz & Ez). rewrite P. cbn [bind coordinates]. exists (odata z). rewrite Uz, Uy. split; [reflexivity|]. rewrite Sy in *. split; [exact Sz|].
    intros c c' H. rewrite (Ez c c' H). apply Ey.
Qed.
(** Other names are not axes. *)
Theorem C76_no_axis n : ~ In n axis_names -> axis n = Raise KeyError.
Proof.
  intros N. unfold axis_of. assert (H : forall x, In x axis_names -> str_eqb n x = false) by (intros x I; apply str_eqb_neq; intros ->; contradiction).
  rewrite !H by (apply (mem_spec str_eqb str_decides); vm_compute; reflexivity). reflexivity.
Qed.
(** The number of points along an axis: as many as in the file. *)
Definition points_along (n : str) (k : nat) : Prop :=
  (In n [s "time"; s "shell"; s "mu"] /\ exists v, variable_of f n v /\ shape (v_data v) = [k]) \/
  (n = s "species" /\ exists v, variable_of f (s "mass") v /\ shape (v_data v) = [k]) \/
  (n = s "energy" /\ exists v, variable_of f (s "egrid") v /\ k <> 1 /\ (shape (v_data v) = [k] \/ shape (v_data v) = [1; k])).
Lemma acreate_shape n unit y v : variable_of f n v -> acreate n unit = Ok y -> okind y = KTensor /\ shape (odata y) = shape (v_data v).
Proof using sound.
  intros V. unfold axes_create. destruct arrays_view_ok as (l & W). rewrite W. cbn [bind]. rewrite (arrays_lookup n l W), get_array_eq.
  rewrite (proj2 (file_lookup f n v sound) V). destruct (existsb (str_eqb n) array_names); [|discriminate]. cbn [bind fa_dims fa_unit fa_data].
  destruct (standardize (unit_attribute v)) as [text|]; [|discriminate]. cbn [bind]. destruct (context_unit munit text) as [u|]; [|discriminate]. cbn [bind].
  unfold build. destruct (Nat.eqb (ndim (v_data v)) 0) eqn:Z; [discriminate|]. cbn [bind]. unfold tensor_to. cbn [ounit okind odata].
  destruct (conversion u _) as [((a & b) & w)|]; [|discriminate]. cbn [bind]. destruct (ueq a b).
  - intros E. injection E as <-. split; reflexivity.
  - unfold build. change (ndim (nd_map (Qcmult w) (v_data v))) with (ndim (v_data v)). rewrite Z. intros E. injection E as <-. split; reflexivity.
Qed.
Lemma mapM_length {A B} (g : A -> result B) : forall l r, mapM g l = Ok r -> length r = length l.
Proof. clear. induction l as [|a l IH]; cbn [mapM]; intros r E; [injection E as <-; reflexivity|]. destruct (g a) as [b|]; [|discriminate E]. cbn [bind] in E. destruct (mapM g l) as [q|]; [|discriminate E]. injection E as <-. cbn [length]. rewrite (IH q eq_refl). reflexivity. Qed.
Lemma elements_length m c l : elements m c = Ok l -> length l = length m.
Proof.
  clear. unfold elements. destruct (Nat.eqb_spec (length m) (length c)) as [L|]; [|discriminate]. cbn [negb].
  destruct (get_mass_indices nucleons m) as [idx|] eqn:G; [|discriminate]. cbn [bind]. destruct (mapM _ idx) as [bases|] eqn:B; [|discriminate]. cbn [bind]. intros E. injection E as <-.
  apply mapM_length in G, B. rewrite map_length, combine_length, map_length. lia.
Qed.
Lemma axis_cases : axis (s "time") = (x <- acreate (s "time") None ;; coordinates (PObj x)) /\ axis (s "mu") = (x <- acreate (s "mu") None ;; coordinates (PObj x)) /\
  axis (s "shell") = (arrays <- view_arrays f ;; base <- lookup str_eqb arrays (s "shell") ;; points (fa_data base)) /\
  axis (s "species") = (l <- species_symbols ueq munit conversion system f ;; Ok (FSymbols l)) /\
  axis (s "energy") = (x <- acreate (s "egrid") None ;; y <- psqueeze (PObj x) ;; coordinates y).
Proof. repeat split; reflexivity. Qed.
Theorem C76_axis_length n k a : points_along n k -> axis n = Ok a -> faxis_len a = Ok k.
Proof using sound.
  intros [(I & v & V & Sh)|[(-> & v & V & Sh)|(-> & v & V & K & Sh)]].
  - destruct I as [<-|[<-|[<-|[]]]].
    + rewrite (proj1 axis_cases). destruct (acreate _ None) as [y|] eqn:Y; [|discriminate]. destruct (acreate_shape _ _ _ _ V Y) as (_ & Sy). cbn. intros E. injection E as <-. cbn [faxis_len]. rewrite Sy, Sh. reflexivity.
    + rewrite (proj1 (proj2 (proj2 axis_cases))). destruct arrays_view_ok as (l & W). rewrite W. cbn [bind]. rewrite (arrays_lookup _ l W), (member (s "shell") array_names) by (apply (mem_spec str_eqb str_decides); vm_compute; reflexivity).
      rewrite get_array_eq, (proj2 (file_lookup f _ v sound) V). cbn [bind fa_data]. unfold points, ndim. rewrite Sh. cbn [length Nat.ltb Nat.leb].
      destruct (existsb _ _); [discriminate|]. intros E. injection E as <-. cbn [faxis_len]. rewrite map_length, (flat_line _ k Sh), map_length, seq_length. reflexivity.
    + rewrite (proj1 (proj2 axis_cases)). destruct (acreate _ None) as [y|] eqn:Y; [|discriminate]. destruct (acreate_shape _ _ _ _ V Y) as (_ & Sy). cbn. intros E. injection E as <-. cbn [faxis_len]. rewrite Sy, Sh. reflexivity.
  - rewrite (proj1 (proj2 (proj2 (proj2 axis_cases)))). unfold species_symbols. destruct (acreate (s "mass") _) as [y|] eqn:Y; [|discriminate]. destruct (acreate_shape _ _ _ _ V Y) as (_ & Sy). cbn [bind].
    destruct (acreate (s "charge") _) as [z|]; [|discriminate]. cbn [bind]. unfold numbers at 1. destruct (Nat.eqb _ 1); [|discriminate]. cbn [bind]. destruct (numbers z) as [c|]; [|discriminate]. cbn [bind].
    destruct (elements _ c) as [l|] eqn:E; [|discriminate]. cbn [bind]. intros X. injection X as <-. cbn [faxis_len]. apply elements_length in E. rewrite E, (flat_line _ k) by congruence. rewrite map_length, seq_length. reflexivity.
  - rewrite (proj2 (proj2 (proj2 (proj2 axis_cases)))). destruct (acreate _ None) as [y|] eqn:Y; [|discriminate]. destruct (acreate_shape _ _ _ _ V Y) as (Ky & Sy). cbn [bind].
    destruct (C67_squeeze_objects (B := faxis (U := U)) y) as (_ & _ & N). { unfold well_formed. rewrite Ky, Sy. destruct Sh as [->| ->]; discriminate. }
    destruct N as (z & P & _ & _ & _ & Sz & _); [rewrite Ky; discriminate| |].
    + rewrite Sy. intros A. destruct Sh as [Sh|Sh]; rewrite Sh in A; inversion A as [|x l H1 H2]; subst; [exact (K eq_refl)|]. inversion H2 as [|x' l' H3 H4]. exact (K H3).
    + rewrite P. cbn [bind coordinates]. intros E. injection E as <-. cbn [faxis_len]. rewrite Sz, Sy. apply Nat.eqb_neq in K. destruct Sh as [-> | ->]; cbn [filter Nat.eqb negb]; rewrite K; reflexivity.
Qed.
End Arrays.
