(** * Properties of the readers of EPREM source files: files, defaults, limits *)
From Verif Require Import PyBase PyLemmas ContainerModel ContainerProofs ContainerProofs2 SymbolicModel SymbolicSpec SymbolicProofs ConfigModel ConfigSpec ConfigProofs ConfigProperties
  ParameterModel ParameterSpec ParameterProofs ParameterNumbers ParameterRuntime ParameterProperties SourceModel SourceSpec SourceProofs SourceProperties.
From Coq Require Import Permutation Sorted.

(** What is read from a source file can be standardized. *)
Definition complete (m : list (str * list (str * str))) : Prop := forall k a, In (k, a) m -> exists d, In (s "defaultVal", d) a.
Theorem C77_loadable text m : load_parameters text = Ok m -> NoDup (map fst m) /\ loadable m /\ complete m.
Proof.
  intros E. pose proof (C77_parameters text) as P. rewrite E in P. destruct P as (ND & _ & G). split; [exact ND|].
  assert (H : forall k a, In (k, a) m -> NoDup (map fst a) /\ ~ In (s "type") (map fst a) /\ (exists r, In (s "mode", reader_text r) a) /\ exists d, In (s "defaultVal", d) a).
  { intros k a I. apply (lookup_in str_eqb str_decides _ _ _ ND), G in I as (dc & (b & l & af & _ & D & _) & (d & ID & [(_ & ->)|(n & v & m' & lo & hi & _ & IM & _ & _ & ->)])).
    - pose proof (attributes_nodup _ _ _ D) as NDa. split; [exact NDa|]. destruct D as (r & items & values & _ & _ & _ & _ & ->). split; [|split; [exists r; left; reflexivity|exists d; exact ID]].
      cbn [map fst]. intros [X|X]; [discriminate X|]. apply combine_names in X. destruct r; cbn in X; intuition discriminate.
    - split; [cbn; repeat (constructor; [cbn; intuition discriminate|]); constructor|]. split; [cbn; intuition discriminate|].
      split; [|exists v; right; left; reflexivity]. pose proof (attributes_nodup _ _ _ D) as NDa. destruct D as (r & items & values & _ & _ & _ & _ & ->). exists r. left. f_equal.
      cbn [map fst] in NDa. inversion NDa as [|? ? N _]; subst. destruct IM as [IM|IM]; [injection IM as <-; reflexivity|]. exfalso. apply N. exact (in_map fst _ _ IM). }
  split; intros k a I; destruct (H k a I) as (H1 & H2 & H3 & H4); auto.
Qed.
Print Assumptions C77_loadable.

(** ** files *)
(** Without a source directory, or if it lacks the file, the tables of the
    package are used, and otherwise the file alone; a path that does not exist is
    an error. *)
Theorem C77_files cpackage ppackage :
  (forall l, l = NotGiven \/ l = Directory None ->
     constants_file cpackage l = Ok cpackage /\ parameters_file ppackage l = standardize ppackage) /\
  (forall l text, l = Directory (Some text) \/ l = File text ->
     constants_file cpackage l = Ok (load_constants text) /\ parameters_file ppackage l = (m <- load_parameters text ;; standardize m)) /\
  constants_file cpackage NoSuchPath = Raise (OtherError "NonExistentPathError") /\
  parameters_file ppackage NoSuchPath = Raise (OtherError "NonExistentPathError").
Proof.
  split; [intros l [-> | ->]; split; reflexivity|]. split; [intros l text [-> | ->]; split; reflexivity|]. split; reflexivity.
Qed.
Print Assumptions C77_files.

(** ** defaults *)
(** the value of a literal default *)
Inductive literal_value : reader -> str -> pvalue -> Prop :=
  | literal_int x q : integer_numeral x q -> literal_value ReadInt x (PNum q)
  | literal_double x q : numeral x q -> literal_value ReadDouble x (PNum q)
  | literal_string x : literal_value ReadString x (PStr x)
  | literal_array x q : numeral x q -> literal_value ReadArray (s "[" ++ x ++ s "]") (PList [PNum q]).
Lemma literal_converted r x v : literal_value r x v -> convert x (reader_type r) = v /\ has_type v (reader_type r) = true.
Proof.
  intros [y q N|y q N|y|y q N]; cbn [reader_type convert].
  - apply int_numeral in N. rewrite N. split; reflexivity.
  - apply float_numeral in N. rewrite N. split; reflexivity.
  - split; reflexivity.
  - assert (F : Forall2 numeral [y] [q]) by (constructor; [exact N|constructor]). pose proof (numerals_read [y] [q] F) as H.
    change (s "[" ++ y ++ s "]") with (list_text [y]). rewrite H. split; reflexivity.
Qed.
Theorem C77_reference m defs : loadable m -> complete m -> NoDup (map fst m) -> standardize m = Ok defs ->
  exists params, reference defs = Ok params /\ map fst params = map fst m /\
    forall k a r d, lookup str_eqb m k = Ok a -> In (s "mode", reader_text r) a -> In (s "defaultVal", d) a -> lookup str_eqb params k = Ok (reader_type r, d).
Proof.
  intros L C ND E. destruct (C77_definitions m L ND) as (defs' & E' & K & D). rewrite E in E'. injection E' as <-.
  assert (NDd : NoDup (map fst defs)) by (rewrite K; exact ND).
  set (g := fun a : list (str * attr) => t <- lookup str_eqb a (s "type") ;; d <- lookup str_eqb a (s "defaultVal") ;; match t, d with AType t, AText d => Ok (t, d) | _, _ => Raise TypeError end).
  assert (G : forall k a r d, lookup str_eqb m k = Ok a -> In (s "mode", reader_text r) a -> In (s "defaultVal", d) a ->
            exists x, lookup str_eqb defs k = Ok x /\ g x = Ok (reader_type r, d)).
  { intros k a r d LA IM ID. destruct (D k a LA) as (x & raw & r' & LX & _ & IM' & LN & _). exists x. split; [exact LX|]. unfold g. rewrite !LN.
    destruct (L k a (proj1 (lookup_in str_eqb str_decides _ _ _ ND) LA)) as (NDa & _ & _).
    assert (reader_text r' = reader_text r) as R by (apply (lookup_in str_eqb str_decides _ _ _ NDa) in IM, IM'; congruence). apply reader_inj in R as ->.
    rewrite (proj2 (lookup_in str_eqb str_decides _ _ _ NDa) ID). reflexivity. }
  assert (OK : exists params, reference defs = Ok params).
  { assert (H : forall k x, In (k, x) defs -> exists y, g x = Ok y).
    { intros k x I. assert (IK : In k (map fst m)) by (rewrite <- K; exact (in_map fst _ _ I)). apply in_map_iff in IK as ([k' a] & Ek & IA). cbn in Ek. subst k'.
      destruct (L k a IA) as (_ & _ & r & IM). destruct (C k a IA) as (d & ID). apply (lookup_in str_eqb str_decides _ _ _ ND) in IA.
      destruct (G k a r d IA IM ID) as (x' & LX & GX). apply (lookup_in str_eqb str_decides _ _ _ NDd) in I. rewrite I in LX. injection LX as <-. eauto. }
    clear -H. unfold reference. induction defs as [|[k x] defs IH]; [exists []; reflexivity|]. cbn [mapM fst snd]. destruct (H k x (or_introl eq_refl)) as ([t d] & GX). unfold g in GX.
    destruct (lookup str_eqb x (s "type")) as [t'|]; cbn [bind] in GX |- *; [|discriminate]. destruct (lookup str_eqb x (s "defaultVal")) as [d'|]; cbn [bind] in GX |- *; [|discriminate].
    destruct t' as [|t']; [discriminate|]. destruct d' as [d'|]; [|discriminate]. cbn [bind]. destruct IH as (ps & ->); [intros k' x' I; apply (H k' x'); right; exact I|]. cbn. eauto. }
  destruct OK as (params & OK). exists params. split; [exact OK|]. unfold reference in OK.
  pose proof (fun H => lookup_mapM _ g _ _ H OK) as KG. destruct KG as (K2 & G2).
  { intros ka. unfold g. destruct (lookup str_eqb (snd ka) (s "type")) as [t|]; [|reflexivity]. cbn [bind]. destruct (lookup str_eqb (snd ka) (s "defaultVal")) as [d|]; [|reflexivity]. cbn [bind].
    destruct t, d; reflexivity. }
  split; [congruence|]. intros k a r d LA IM ID. destruct (G k a r d LA IM ID) as (x & LX & GX). rewrite G2, LX. exact GX.
Qed.
Print Assumptions C77_reference.
(** A parameter whose last declaration gives a literal default has that value,
    whatever else the files define. *)
Theorem C77_default libm consts ctypes params name r text v n : lookup str_eqb params name = Ok (reader_type r, text) -> literal_value r text v ->
  (forall q, ~ numeral name q) -> name <> s "N_PROCS" -> name <> s "third" -> default_of libm consts ctypes params (S n) name = Ok v.
Proof.
  intros L V NN N1 N2. unfold default_of.
  assert (M : mem str_eqb name (map fst params) = true).
  { destruct (mem str_eqb name (map fst params)) eqn:M; [reflexivity|]. apply (mem_false str_eqb str_decides) in M.
    rewrite (proj2 (lookup_missing str_eqb str_decides params name KeyError)) in L by auto. discriminate. }
  rewrite M. cbn [eval_param]. destruct (cast name) as [q|] eqn:C; [exfalso; apply (NN q), cast_numeral, C|].
  rewrite (proj2 (str_eqb_neq _ _) N1), (proj2 (str_eqb_neq _ _) N2), L. destruct (literal_converted r text v V) as (-> & ->). reflexivity.
Qed.
Print Assumptions C77_default.
(** From the text of the file to the value of the parameter. *)
Theorem C77_end_to_end text m defs name declared r d v : load_parameters text = Ok m -> standardize m = Ok defs ->
  last_declared parameter_line (file_lines text) name declared -> In (s "mode", reader_text r) declared ->
  (forall q, ~ numeral name q) -> name <> s "N_PROCS" -> name <> s "third" -> In (s "defaultVal", d) declared ->
  ((forall w, ~ last_declared array_declared (file_lines text) d w) /\ literal_value r d v \/
   exists size x, last_declared array_declared (file_lines text) d (size, x) /\ literal_value r x v) ->
  exists params, reference defs = Ok params /\ forall libm consts ctypes n, default_of libm consts ctypes params (S n) name = Ok v.
Proof.
  intros LP SD LD IM NN N1 N2 ID CASES. destruct (C77_loadable text m LP) as (ND & LO & CO). destruct (C77_reference m defs LO CO ND SD) as (params & RP & _ & G).
  exists params. split; [exact RP|]. intros libm consts ctypes n. pose proof (C77_parameters text) as P. rewrite LP in P. destruct P as (_ & _ & P).
  assert (NDd : NoDup (map fst declared)) by (destruct LD as (b & l & af & _ & D & _); exact (attributes_nodup _ _ _ D)).
  assert (U : forall k v w, In (k, v) declared -> In (k, w) declared -> v = w).
  { intros k v1 w I J. apply (lookup_in str_eqb str_decides _ _ _ NDd) in I, J. congruence. }
  assert (LM : exists attrs, lookup str_eqb m name = Ok attrs).
  { assert (IA : In name (map fst (get_assignments text))).
    { destruct (assignments_spec text) as (NDa & GA). apply GA in LD. apply (lookup_in str_eqb str_decides _ _ _ NDa) in LD. exact (in_map fst _ _ LD). }
    assert (K : map fst m = map fst (get_assignments text)).
    { unfold load_parameters in LP. destruct (lookup_mapM _ (substitute (get_arrays text)) _ _ (fun ka => eq_refl) LP) as (K & _). exact K. }
    rewrite <- K in IA. apply in_map_iff in IA as ([k a] & E & I). cbn in E. subst k. exists a. apply (lookup_in str_eqb str_decides _ _ _ ND), I. }
  destruct LM as (attrs & LM). pose proof (proj1 (P name attrs) LM) as (dc & LD' & R).
  assert (dc = declared) as ->.
  { destruct (assignments_spec text) as (_ & GA). apply GA in LD, LD'. congruence. }
  destruct R as (d' & ID' & R). assert (d' = d) as -> by exact (U _ _ _ ID' ID).
  destruct R as [(NA & ->)|(n' & x' & m' & lo & hi & LA & IM' & IL & IH & ->)].
  - destruct CASES as [(_ & V)|(size & x & LA & _)]; [|exfalso; exact (NA _ LA)]. apply (C77_default _ _ _ _ _ r d); try assumption. exact (G name declared r d LM IM ID).
  - destruct CASES as [(NA & _)|(size & x & LA' & V)]; [exfalso; exact (NA _ LA)|].
    assert (x' = x) as -> by (apply arrays_spec in LA, LA'; congruence). assert (m' = reader_text r) as -> by exact (U _ _ _ IM' IM).
    apply (C77_default _ _ _ _ _ r x); try assumption. apply (G name _ r x LM); [left; reflexivity|right; left; reflexivity].
Qed.
Print Assumptions C77_end_to_end.

(** ** conversion to a dictionary *)
Theorem C77_todict {V} (defs : list (str * V)) : NoDup (map fst defs) ->
  todict defs (lookup str_eqb defs) false = Ok defs /\
  exists sorted, todict defs (lookup str_eqb defs) true = Ok sorted /\ Permutation defs sorted /\
    StronglySorted (fun a b => str_ltb (fst a) (fst b) = true) sorted.
Proof.
  intros ND. unfold todict.
  assert (G : forall l, incl l defs -> mapM (fun k => v <- lookup str_eqb defs k ;; Ok (k, v)) (map fst l) = Ok l).
  { induction l as [|[k v] l IH]; intros I; [reflexivity|]. cbn [map fst mapM]. rewrite (proj2 (lookup_in str_eqb str_decides _ _ _ ND) (I _ (or_introl eq_refl))). cbn [bind].
    rewrite IH; [reflexivity|]. intros x J. apply I. right. exact J. }
  split; [apply G, incl_refl|].
  assert (P : exists sorted, Permutation defs sorted /\ map fst sorted = sort_by str_ltb (map fst defs)).
  { pose proof (sort_by_perm str_ltb (map fst defs)) as P. revert P. generalize (sort_by str_ltb (map fst defs)) as ks. intros ks P. clear -P.
    remember (map fst defs) as l eqn:E. revert defs E. induction P as [|x l l' P IH|x y l|l l' l'' P IH P' IH']; intros defs E.
    - destruct defs; [|discriminate]. exists []. auto.
    - destruct defs as [|[k v] defs]; [discriminate|]. injection E as -> E. destruct (IH defs E) as (so & P2 & M). exists ((k, v) :: so). split; [apply perm_skip, P2|cbn; congruence].
    - destruct defs as [|[k v] [|[k2 v2] defs]]; try discriminate. injection E as -> -> ->. exists ((k2, v2) :: (k, v) :: defs). split; [apply perm_swap|reflexivity].
    - destruct (IH defs E) as (so & P2 & M). destruct (IH' so (eq_sym M)) as (so2 & P3 & M2). exists so2. split; [eapply Permutation_trans; eassumption|exact M2]. }
  destruct P as (sorted & P & M). exists sorted. split; [rewrite <- M; apply G; intros x I; apply (Permutation_in _ (Permutation_sym P) I)|]. split; [exact P|].
  pose proof (sort_str_sorted (map fst defs) ND) as S0. rewrite <- M in S0. clear -S0. induction sorted as [|x l IH]; [constructor|]. cbn in S0. inversion S0 as [|? ? S1 F]; subst.
  constructor; [apply IH, S1|]. rewrite Forall_map in F. exact F.
Qed.
Print Assumptions C77_todict.

(** ** what is not read *)
(** A line with any other character, such as a comma or a quote, defines no
    constant, wherever the character stands. *)
Theorem C77_other_characters line c : In c line -> ~ In c (s "#-+.*/()" ++ ascii_word ++ latin_word) -> is_space c = false -> define_match line = None.
Proof.
  intros I N B. destruct (define_match line) as [[n v]|] eqn:E; [|reflexivity]. exfalso. apply constant_iff in E as (a & b & x & d & -> & A & (Bb & _) & (X & _) & D & (_ & F) & (V & _)).
  unfold blank in *. rewrite Forall_forall in A, Bb, X, D. unfold one_of in F. rewrite Forall_forall in F, V. rewrite !in_app_iff in I.
  destruct I as [I|[I|[I|[I|[I|[I|I]]]]]].
  - rewrite (A c I) in B. discriminate.
  - apply N. revert I. clear. intros [<-|[<-|[<-|[<-|[<-|[<-|[<-|[]]]]]]]]; apply inb_in; vm_compute; reflexivity.
  - rewrite (Bb c I) in B. discriminate.
  - apply N. specialize (F c I). apply const_class in F. rewrite !in_app_iff. right. left. revert F. clear. intros F.
    assert (H : forall c, implb (is_const c) (inb ascii_word c) = true) by (apply ascii_all; vm_compute; reflexivity). specialize (H c). rewrite F in H. apply inb_in, H.
  - rewrite (X c I) in B. discriminate.
  - destruct (V c I) as [H|H]; [|congruence]. apply N. apply in_app_iff in H as [H|H]; [|apply in_or_app; right; exact H]. apply in_or_app. left. right. exact H.
  - rewrite (D c I) in B. discriminate.
Qed.
Print Assumptions C77_other_characters.
(** A line that begins with "//" declares nothing. *)
Theorem C77_line_comments a x : blank a -> define_match (a ++ s "//" ++ x) = None /\ call_match (a ++ s "//" ++ x) = None /\ array_match (a ++ s "//" ++ x) = None.
Proof.
  intros A.
  assert (H : forall a' c r, blank a' -> is_space c = false -> a ++ s "//" ++ x = a' ++ c :: r -> c = "/"%char).
  { intros a' c r A' C E. apply (span_unique is_space) in E as (_ & E); [|exact A|exact A'|reflexivity|cbn; rewrite C; reflexivity]. injection E as <- _. reflexivity. }
  split; [|split].
  - destruct (define_match _) as [[n v]|] eqn:E; [|reflexivity]. exfalso. apply constant_iff in E as (a' & b & c & d & E & A' & _). apply H in E; [discriminate E|exact A'|reflexivity].
  - destruct (call_match _) as [o|] eqn:E; [|reflexivity]. exfalso. destruct (call_shape _ _ E) as (r & key & args & ->). apply call_iff in E as (a' & t & b & c & k & d & e & E & A' & T & _).
    destruct (target_head t T) as (h & y & -> & Hh). apply H in E as ->; [|exact A'|exact Hh]. apply target_chars in T. inversion T. discriminate.
  - destruct (array_match _) as [[n z v]|] eqn:E; [|reflexivity]. exfalso. apply array_iff in E as (a' & b & c & d & e & E & A' & _). apply H in E; [discriminate E|exact A'|reflexivity].
Qed.
Print Assumptions C77_line_comments.

(** ** comments *)
(** The value of a constant includes a comment after it, if the comment has
    words only, and then it cannot be evaluated; with other punctuation in the
    comment, the constant is not read at all. *)
Theorem C77_trailing_comment_refuted :
  (forall name value comment, constant_name name -> constant_text value -> Forall (fun c => is_value c = true) comment ->
     define_match (s "#define " ++ name ++ s " " ++ value ++ s " /* " ++ comment ++ s " */") = Some (name, value ++ s " /* " ++ comment ++ s " */")) /\
  (forall libm n, is_ok (bt_compute libm (load_constants (s "#define AU 1.5e13 /* cm */")) [(s "AU", false)] n (s "AU")) = false) /\
  load_constants (s "#define AU 1.5e13 /* in cm, not m */") = [].
Proof.
  split; [|split; [intros libm [|n]; vm_compute; reflexivity|vm_compute; reflexivity]].
  intros name value comment N (V & T) C. apply constant_iff. exists [], (s " "), (s " "), []. rewrite app_nil_r.
  split; [cbn [app]; rewrite <- ?app_assoc; reflexivity|]. split; [constructor|]. split; [split; [repeat constructor|discriminate]|]. split; [split; [repeat constructor|discriminate]|].
  split; [constructor|]. split; [exact N|]. split.
  - apply Forall_app. split; [exact V|]. assert (H : forall y, Forall (fun c => is_value c = true) y -> Forall (fun c => In c (s "-+.*/()" ++ ascii_word ++ latin_word) \/ is_space c = true) y).
    { intros y F. eapply Forall_impl; [|exact F]. intros c. apply value_class. }
    apply H. apply Forall_app. split; [repeat constructor|]. apply Forall_app. split; [exact C|repeat constructor].
  - destruct value as [|h v]; [destruct T|]. destruct T as (T & _). cbn [app]. 
    replace (v ++ s " /* " ++ comment ++ s " */") with ((v ++ s " /* " ++ comment ++ s " ") ++ s "*/") by (rewrite <- !app_assoc; reflexivity).
    apply tight_ends; [exact T|split; reflexivity].
Qed.
Print Assumptions C77_trailing_comment_refuted.
(** Lines inside a comment of several lines are read as if they were code. *)
Definition feed : str := ["010"%char].
Theorem C77_block_comment_refuted : load_constants (s "/*" ++ feed ++ s "#define OLD 1.0" ++ feed ++ s "*/" ++ feed) = [(s "OLD", s "1.0")] /\
  map fst (get_assignments (s "/*" ++ feed ++ s "config.old = readInt(" ++ quote ++ s "old" ++ quote ++ s ", 1, 0, 2);" ++ feed ++ s "*/" ++ feed)) = [s "old"].
Proof. split; vm_compute; reflexivity. Qed.
Print Assumptions C77_block_comment_refuted.
(** Arguments are taken apart at every comma. *)
Theorem C77_nested_commas_refuted : option_map call_parse (call_match (s "x = readDouble(" ++ quote ++ s "x" ++ quote ++ s ", fmin(1.0, 2.0), 0.0, 3.0);")) =
  Some (s "x", [(s "mode", s "readDouble"); (s "defaultVal", s "fmin(1.0"); (s "minVal", s "2.0)"); (s "maxVal", s "0.0")]).
Proof. vm_compute. reflexivity. Qed.
Print Assumptions C77_nested_commas_refuted.
(** Arrays with several or negative elements are not recognized: the default
    stays the name of the array, which has no value. *)
Definition two_elements : str :=
  s "Scalar_t m[2] = {1.0, 2.0};" ++ feed ++ s "config.mass = readDoubleArray(" ++ quote ++ s "mass" ++ quote ++ s ", 2, &n, m, 1.0, 9.0);" ++ feed.
Theorem C77_arrays_refuted : array_match (s "Scalar_t m[2] = {1.0, 2.0};") = None /\ array_match (s "Scalar_t m[1] = {-1.0};") = None /\
  exists params, (m <- load_parameters two_elements ;; d <- standardize m ;; reference d) = Ok params /\
    forall libm n, is_ok (default_of libm [] [] params n (s "mass")) = false.
Proof.
  split; [vm_compute; reflexivity|]. split; [vm_compute; reflexivity|]. eexists. split; [vm_compute; reflexivity|]. intros libm [|[|n]]; vm_compute; reflexivity.
Qed.
Print Assumptions C77_arrays_refuted.
(** [get] with the format "full" fails for an unknown name, instead of returning
    the default. *)
Theorem C77_full_unknown_refuted meta defs key : ~ In key (map fst defs) -> get_full meta defs key = Raise TypeError.
Proof. intros N. unfold get_full. rewrite (proj2 (lookup_missing str_eqb str_decides defs key KeyError)) by auto. reflexivity. Qed.
Print Assumptions C77_full_unknown_refuted.

(** ** a file *)
Definition sample_lines : list str :=
  [s "  Scalar_t massDefault[1] = {1.0};"; s "Scalar_t obsRDefault[1]={config.rScale};"; [];
   s "  // config.old = readInt(" ++ quote ++ s "old" ++ quote ++ s ", 1, 0, 2);";
   s "  config.numSpecies = readInt(" ++ quote ++ s "numSpecies" ++ quote ++ s ", 1, 1, 100);";
   s "  config.mass = readDoubleArray(" ++ quote ++ s "mass" ++ quote ++ s ", 1, &config.numMass, massDefault, 1.0, LARGEFLOAT);";
   s "  config.rScale=readDouble(" ++ quote ++ s "rScale" ++ quote ++ s " , RSAU, SMALLFLOAT, LARGEFLOAT);";
   s "  config.mhdDirectory = (char*)readString(" ++ quote ++ s "mhdDirectory" ++ quote ++ s ", " ++ quote ++ quote ++ s ");";
   s "  config.numSpecies = readInt(" ++ quote ++ s "numSpecies" ++ quote ++ s ", 2, 1, 100);"].
Example sample_read : load_parameters (text_of feed sample_lines []) =
  Ok [(s "numSpecies", [(s "mode", s "readInt"); (s "defaultVal", s "2"); (s "minVal", s "1"); (s "maxVal", s "100")]);
      (s "mass", [(s "mode", s "readDoubleArray"); (s "defaultVal", s "[1.0]"); (s "maxVal", s "LARGEFLOAT"); (s "minVal", s "1.0")]);
      (s "rScale", [(s "mode", s "readDouble"); (s "defaultVal", s "RSAU"); (s "minVal", s "SMALLFLOAT"); (s "maxVal", s "LARGEFLOAT")]);
      (s "mhdDirectory", [(s "mode", s "readString"); (s "defaultVal", [])])].
Proof. vm_compute. reflexivity. Qed.
Example sample_default : exists params, (m <- load_parameters (text_of feed sample_lines []) ;; d <- standardize m ;; reference d) = Ok params /\
  forall libm n, default_of libm [] [] params (S n) (s "numSpecies") = Ok (PNum (zq 2)) /\ default_of libm [] [] params (S n) (s "mass") = Ok (PList [PNum 1%Qc]) /\
    default_of libm [] [] params (S n) (s "mhdDirectory") = Ok (PStr []).
Proof. eexists. split; [vm_compute; reflexivity|]. intros libm n. split; [|split]; vm_compute; repeat f_equal; apply Qc_is_canon; reflexivity. Qed.
Example sample_constants : load_constants (text_of feed [s "#define AU 1.5e13"; s "#define TAU  ( AU / C )  "; s "#define MAX(a,b) ((a)>(b)?(a):(b))"; s "#define AU 1.495978707e13"] []) =
  [(s "AU", s "1.495978707e13"); (s "TAU", s "( AU / C )")].
Proof. vm_compute. reflexivity. Qed.
(** the hypotheses of the theorems can be met *)
Example sample_last : last_declared constant_line [s "#define AU 1.5e13"; s "#define AU 1.495978707e13"] (s "AU") (s "1.495978707e13").
Proof. exists [s "#define AU 1.5e13"], (s "#define AU 1.495978707e13"), []. split; [reflexivity|]. split; [apply constant_iff; vm_compute; reflexivity|intros l w []]. Qed.
Example sample_writes : writes constant_line [s "#ifndef X"; s "#define AU 1.5e13"; []; s "#define TAU (AU / C)"] [(s "AU", s "1.5e13"); (s "TAU", s "(AU / C)")].
Proof.
  apply writes_skip; [intros k v H; apply constant_iff in H; vm_compute in H; discriminate H|].
  apply writes_more; [apply constant_iff; vm_compute; reflexivity|]. apply writes_skip; [intros k v H; apply constant_iff in H; vm_compute in H; discriminate H|].
  apply writes_more; [apply constant_iff; vm_compute; reflexivity|constructor].
Qed.
Example sample_incomplete : load_parameters (s "x = readDoubleArray(" ++ quote ++ s "x" ++ quote ++ s ", 1, &n);") = Raise KeyError.
Proof. vm_compute. reflexivity. Qed.
