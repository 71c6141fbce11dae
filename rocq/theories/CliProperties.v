(** * C79: comparing configuration files on the command line *)
From Verif Require Import PyBase PyLemmas ContainerModel ContainerProofs ContainerProofs2 SymbolicModel SymbolicProofs
  ConfigModel ConfigSpec ConfigProofs ConfigProperties ParameterModel SourceSpec SourceProperties CliModel CliSpec CliProofs.
From Coq Require Import Permutation Sorted.
Local Open Scope nat_scope.

(** ** The files *)
Lemma distinct_map {A} (f : A -> str) (P : A -> Prop) (INJ : forall x y, P x -> P y -> f x = f y -> x = y) all : forall l,
  Forall P all -> Forall P l -> distinct_in_order (map f all) (map f l) -> distinct_in_order all l.
Proof.
  induction all as [|x all IH] using rev_ind; intros l Fa Fl D.
  - inversion D as [E1 E2|? ? ? ? ? E1|? ? ? ? ? E1].
    + destruct l; [constructor|discriminate].
    + exfalso. destruct all; discriminate E1.
    + exfalso. destruct all; discriminate E1.
  - apply Forall_app in Fa as (Fa & Fx). inversion Fx as [|? ? Px _]; subst. rewrite map_app in D. cbn in D.
    inversion D as [E1 E2|all' y l' D' I E1 E2|all' y l' D' I E1 E2].
    + exfalso. destruct (map f all); discriminate E1.
    + apply app_inj_tail in E1 as (-> & ->). constructor; [apply IH; assumption|].
      apply in_map_iff in I as (z & E & I). rewrite Forall_forall in Fa. apply INJ in E; [subst z; exact I|apply Fa, I|exact Px].
    + apply app_inj_tail in E1 as (-> & ->). symmetry in E2. apply map_eq_app in E2 as (l1 & l2 & -> & <- & E2).
      destruct l2 as [|z [|? ?]]; try discriminate. injection E2 as E2. apply Forall_app in Fl as (F1 & F2). inversion F2 as [|? ? Pz _]; subst.
      apply INJ in E2; [subst z|exact Pz|exact Px]. constructor; [apply IH; assumption|].
      intros J. apply I, in_map, J.
Qed.
Lemma slashed l : l <> [] -> "/"%char :: joined l = concat (map (cons "/"%char) l).
Proof.
  induction l as [|x l IH]; [congruence|]. intros _. destruct l as [|y l]; [cbn; rewrite app_nil_r; reflexivity|].
  rewrite joined_cons by discriminate. cbn [map concat app]. f_equal. f_equal. rewrite IH by discriminate. reflexivity.
Qed.
(** Every file is compared once, in the order given, no matter how often or under how many
    names it is given; its label is its path below the deepest directory that contains all the
    files, or a dot if it is the only one, and different files have different labels. *)
Theorem C79_files fullpath files fulls : Forall2 (fun a p => fullpath a = Ok p) files fulls -> files <> [] -> Forall proper_path fulls ->
  exists ps labels dir, normalize_paths fullpath files = Ok (combine ps labels) /\ length labels = length ps /\ ps <> [] /\
    distinct_in_order fulls ps /\ NoDup labels /\
    (forall p, In p fulls -> starts_with p dir) /\ (forall d, (forall p, In p fulls -> starts_with p d) -> starts_with dir d) /\
    Forall2 (fun p l => (p = dir /\ l = s ".") \/ exists rest, rest <> [] /\ p = dir ++ rest /\ "/"%char :: l = concat (map (cons "/"%char) rest)) ps labels.
Proof.
  intros FULL NONE PROPER. destruct (normalized fullpath files fulls FULL NONE PROPER) as (dir & ps & E & O & SAME & NE & ST & GR).
  assert (PP : Forall proper_path ps) by (apply Forall_forall; intros p I; rewrite Forall_forall in PROPER; apply PROPER, SAME, I).
  assert (ND : NoDup ps).
  { apply (NoDup_map_inv path_str). rewrite O. apply first_nodup. }
  exists ps, (map (relpath dir) ps), dir. split; [|split; [|split; [|split; [|split; [|split; [|split]]]]]].
  - rewrite E. f_equal. clear. induction ps as [|p ps IH]; [reflexivity|]. cbn. rewrite IH. reflexivity.
  - apply map_length.
  - exact NE.
  - apply (distinct_map path_str proper_path path_str_inj); [exact PROPER|exact PP|]. rewrite O. apply first_distinct.
  - assert (ST' : forall p, In p ps -> starts_with p dir) by (intros p I; apply ST, SAME, I).
    rewrite Forall_forall in PP. clear -ND ST' PP. induction ND as [|p ps NI ND IH]; cbn; constructor.
    + intros I. apply in_map_iff in I as (q & E & I). apply relpath_inj in E.
      * subst q. contradiction.
      * apply PP. right. exact I.
      * apply PP. left. reflexivity.
      * apply ST'. right. exact I.
      * apply ST'. left. reflexivity.
    + apply IH; intros q I; [apply PP|apply ST']; right; exact I.
  - exact ST.
  - exact GR.
  - assert (ST' : forall p, In p ps -> starts_with p dir) by (intros p I; apply ST, SAME, I). clear -ST'.
    induction ps as [|p ps IH]; cbn; constructor; [|apply IH; intros q I; apply ST'; right; exact I].
    destruct (ST' p (or_introl eq_refl)) as (r & ->). rewrite relpath_rest. destruct r as [|x r]; [left; rewrite app_nil_r; auto|].
    right. exists (x :: r). split; [discriminate|]. split; [reflexivity|]. apply slashed. discriminate.
Qed.
Print Assumptions C79_files.
(** A single file is labelled with a dot. *)
Theorem C79_single_label fullpath a p : fullpath a = Ok p -> normalize_paths fullpath [a] = Ok [(p, s ".")].
Proof.
  intros E. unfold normalize_paths. cbn [mapM]. rewrite E. cbn. rewrite <- (app_nil_r p) at 3. rewrite relpath_rest. reflexivity.
Qed.
Print Assumptions C79_single_label.
(** A file that is missing or cannot be read stops the command. *)
Theorem C79_missing_file package fullpath load files src d n a e : In a files -> fullpath a = Raise e ->
  exists e', compare_config_files package fullpath load files src d n = Raise e'.
Proof.
  intros I E. unfold compare_config_files. destruct files as [|x r]; [destruct I|]. unfold build_arg_dict, normalize_paths.
  destruct (mapM (fun a => p <- fullpath a ;; Ok (a, p)) (x :: r)) as [l|e'] eqn:M; [|cbn; eauto].
  exfalso. apply mapM_Forall2 in M. revert l M I. generalize (x :: r) as fs. clear -E. induction fs as [|f fs IH]; intros l M I; [destruct I|].
  inversion M as [|? ? ? ? H M']; subst. destruct I as [->|I]; [rewrite E in H; discriminate H|exact (IH _ M' I)].
Qed.
Print Assumptions C79_missing_file.
Theorem C79_no_files package fullpath load src d n : compare_config_files package fullpath load [] src d n = Raise (OtherError "UserError").
Proof. reflexivity. Qed.
Print Assumptions C79_no_files.

(** ** The groups *)
Lemma numbered_spec {A} (l : list A) : forall i, numbered i l = combine l (map (fun n => str_of_N (N.of_nat n)) (seq i (length l))).
Proof. induction l as [|x l IH]; intros i; [reflexivity|]. cbn. rewrite IH, Nat.add_1_r. reflexivity. Qed.
Lemma numbers_nodup n : forall i, NoDup (map (fun n => str_of_N (N.of_nat n)) (seq i n)).
Proof.
  intros i. apply FinFun.Injective_map_NoDup; [|apply seq_NoDup]. intros a b E. apply (f_equal N_of_str) in E. rewrite !N_of_str_of_N in E. lia.
Qed.
Definition parameter_group (package : source) (columns : list (str * config)) (key : str) (g : str * list (str * str)) : Prop :=
  exists d, shown_default package key = Ok d /\ fst g = s "  " ++ key ++ s " (default: " ++ d ++ s ")  " /\
    Forall2 (fun col r => fst r = fst col /\ displays (settings (snd col)) (shown_value (snd col)) key (snd r)) columns (snd g).
Section Groups.
Variables (package : source) (fullpath : str -> result path) (load : path -> result config).
Variables (files : list str) (fulls : list path) (src : option source) (diff named : bool).
Hypothesis FULL : Forall2 (fun a p => fullpath a = Ok p) files fulls.
Hypothesis NONE : files <> [].
Hypothesis PROPER : Forall proper_path fulls.
Hypothesis SETTINGS : forall p c, load p = Ok c -> NoDup (map fst (settings c)).
Hypothesis NAMES : NoDup (names (tables package src)) /\ Forall proper_name (names (tables package src)).
Lemma columns_exist : exists ps labels,
  normalize_paths fullpath files = Ok (combine ps labels) /\ distinct_in_order fulls ps /\ ps <> [] /\
  exists labels', length labels' = length ps /\ NoDup labels' /\
    (if named then combine ps labels else numbered 0 (map fst (combine ps labels))) = combine ps labels' /\
    (named = false -> labels' = map (fun n => str_of_N (N.of_nat n)) (seq 0 (length ps))).
Proof using FULL NONE PROPER.
  destruct (C79_files fullpath files fulls FULL NONE PROPER) as (ps & labels & dir & E & LEN & NE & D & ND & _).
  exists ps, labels. split; [exact E|]. split; [exact D|]. split; [exact NE|]. destruct named.
  - exists labels. split; [exact LEN|]. split; [exact ND|]. split; [reflexivity|]. discriminate.
  - exists (map (fun n => str_of_N (N.of_nat n)) (seq 0 (length ps))). split; [rewrite map_length, seq_length; reflexivity|].
    split; [apply numbers_nodup|]. split; [|reflexivity]. rewrite numbered_spec.
    assert (M : map fst (combine ps labels) = ps).
    { clear -LEN. revert labels LEN. induction ps as [|p ps IH]; intros [|l labels] L; cbn in *; try discriminate; [reflexivity|]. rewrite IH by lia. reflexivity. }
    rewrite M. reflexivity.
Qed.
Lemma loaded_columns ps : forall (labels : list str) (targets : list (str * config)), length labels = length ps ->
  mapM (fun pl => c <- load (fst pl) ;; Ok (snd pl, c)) (combine ps labels) = Ok targets ->
  map fst targets = labels /\ Forall2 (fun p t => load p = Ok (snd t)) ps targets.
Proof using.
  clear - load. induction ps as [|p ps IH]; intros [|l labels] targets L E; cbn in L, E; try discriminate.
  - injection E as <-. split; [reflexivity|constructor].
  - apply bind_ok in E as (t & T & E). apply bind_ok in T as (c & C & T). injection T as <-. apply bind_ok in E as (ts & M & E). injection E as <-.
    destruct (IH labels ts) as (A & B); [lia|exact M|]. cbn. rewrite A. split; [reflexivity|]. constructor; [exact C|exact B].
Qed.
Lemma selected_differ columns key : columns <> [] -> Forall (fun t => NoDup (map fst (settings (snd t)))) columns ->
  selected true columns key = true <->
  exists a b v w, In a columns /\ In b columns /\ displays (settings (snd a)) (shown_value (snd a)) key v /\
    displays (settings (snd b)) (shown_value (snd b)) key w /\ v <> w.
Proof using.
  intros NE NDS. unfold selected. cbn [negb orb]. pose proof (maps_displays key columns NDS) as F2.
  destruct (map_parameter key columns) as [|(k0 & v0) r] eqn:M; [destruct columns; [congruence|discriminate M]|].
  rewrite (existsb_differ _ v0 k0 r eq_refl). rewrite Forall_forall in NDS. split.
  - intros (x & y & I & J & N). assert (G : forall z, In z ((k0, v0) :: r) -> exists c, In c columns /\ displays (settings (snd c)) (shown_value (snd c)) key (snd z)).
    { clear -F2. intros z I. induction F2 as [|c z' cs rs (_ & D) F2 IH]; [destruct I|]. destruct I as [<-|I]; [exists c; split; [left; reflexivity|exact D]|].
      destruct (IH I) as (c' & I' & D'). exists c'. split; [right; exact I'|exact D']. }
    destruct (G x I) as (a & Ia & Da). destruct (G y J) as (b & Ib & Db). exists a, b, (snd x), (snd y). auto.
  - intros (a & b & v & w & Ia & Ib & Da & Db & N).
    assert (G : forall c, In c columns -> exists z, In z ((k0, v0) :: r) /\ displays (settings (snd c)) (shown_value (snd c)) key (snd z)).
    { clear -F2. intros c I. induction F2 as [|c' z cs rs (_ & D) F2 IH]; [destruct I|]. destruct I as [<-|I]; [exists z; split; [left; reflexivity|exact D]|].
      destruct (IH I) as (z' & I' & D'). exists z'. split; [right; exact I'|exact D']. }
    destruct (G a Ia) as (x & Ix & Dx). destruct (G b Ib) as (y & Iy & Dy). exists x, y. split; [exact Ix|]. split; [exact Iy|].
    rewrite (displays_one _ _ _ _ _ (NDS a Ia) Dx Da), (displays_one _ _ _ _ _ (NDS b Ib) Dy Db). exact N.
Qed.
Lemma group_is columns key g : Forall (fun t => NoDup (map fst (settings (snd t)))) columns -> group_of package columns key g -> parameter_group package columns key g.
Proof using. intros N (d & D & ->). exists d. split; [exact D|]. split; [reflexivity|]. apply maps_displays, N. Qed.

Theorem C79_groups args : build_arg_dict package fullpath load files src diff named = Ok args ->
  exists ps columns shown groups,
    distinct_in_order fulls ps /\ Forall2 (fun p c => load p = Ok (snd c)) ps columns /\ NoDup (map fst columns) /\
    (named = false -> map fst columns = map (fun n => str_of_N (N.of_nat n)) (seq 0 (length ps))) /\
    StronglySorted (fun a b => str_ltb a b = true) shown /\ Forall2 (parameter_group package columns) shown groups /\
    (forall key, In key shown <-> In key (names (tables package src)) /\
       (diff = true -> exists a b v w, In a columns /\ In b columns /\ displays (settings (snd a)) (shown_value (snd a)) key v /\
          displays (settings (snd b)) (shown_value (snd b)) key w /\ v <> w)) /\
    args = (if diff then [] else map (fun k => (k, [])) shown) ++ groups.
Proof using FULL NONE PROPER SETTINGS NAMES.
  intros E. destruct columns_exist as (ps & labels & NP & D & NE & labels' & LEN & NDL & MAP & NUM).
  unfold build_arg_dict in E. rewrite NP in E. cbn [bind] in E. rewrite MAP in E. apply bind_ok in E as (targets & T & E). apply bind_ok in E as (built & B & E).
  apply loaded_columns in T as (TL & TF); [|exact LEN]. rewrite (dict_of_nodup str_eqb str_decides) in B by (rewrite TL; exact NDL).
  assert (TNE : targets <> []) by (intros ->; inversion TF; subst; congruence).
  destruct NAMES as (ND & PN).
  assert (KP : Forall proper_name (sort_by str_ltb (names (tables package src)))).
  { apply Forall_forall. intros k I. apply sort_by_in in I. rewrite Forall_forall in PN. apply PN, I. }
  assert (KN : NoDup (sort_by str_ltb (names (tables package src)))) by (eapply Permutation_NoDup; [apply sort_by_perm|exact ND]).
  assert (NDS : Forall (fun t => NoDup (map fst (settings (snd t)))) targets).
  { clear -TF SETTINGS. induction TF as [|p t ps ts L TF IH]; constructor; [exact (SETTINGS _ _ L)|exact IH]. }
  destruct (build_ok package diff targets TNE _ KP KN _ _ B) as (groups & -> & G).
  { intros k d I J. apply in_map_iff in J as ((k' & r) & E1 & J). apply in_map_iff in J as (k'' & E2 & J). cbn in E1. injection E2 as E2 _. subst k' k''.
    rewrite Forall_forall in KP. destruct (KP _ J) as (_ & NB). apply NB, heading_blank. }
  exists ps, targets, (filter (selected diff targets) (sort_by str_ltb (names (tables package src)))), groups.
  split; [exact D|]. split; [exact TF|]. split; [rewrite TL; exact NDL|]. split; [rewrite TL; exact NUM|].
  split; [|split; [|split]].
  - pose proof (sort_str_sorted _ ND) as SS. revert SS. generalize (sort_by str_ltb (names (tables package src))) as ks. clear.
    induction 1 as [|k ks SS IH F2]; cbn; [constructor|]. destruct (selected diff targets k); [|exact IH]. constructor; [exact IH|].
    rewrite Forall_forall in *. intros x I. apply filter_In in I as (I & _). auto.
  - clear -G NDS. induction G as [|k g ks gs A G IH]; constructor; [apply group_is; assumption|exact IH].
  - intros key. rewrite filter_In, sort_by_in. destruct diff.
    + rewrite (selected_differ targets key TNE NDS). split; [intros (A & H); split; [exact A|intros _; exact H]|intros (A & H); split; [exact A|apply H; reflexivity]].
    + cbn. split; [intros (A & _); split; [exact A|discriminate]|intros (A & _); auto].
  - injection E as <-. destruct diff.
    + rewrite filter_app. cbn [app].
      assert (F1 : forall l : list str, filter (fun kv : str * list (str * str) => match snd kv with [] => false | _ => true end) (map (fun k => (k, [])) l) = []).
      { induction l as [|x l IH]; [reflexivity|exact IH]. }
      rewrite F1. cbn [app]. clear -G TNE. induction G as [|k g ks gs (d & _ & ->) G IH]; [reflexivity|]. cbn [filter snd].
      unfold map_parameter at 1. destruct targets as [|t ts]; [congruence|]. cbn [map]. f_equal. exact IH.
    + f_equal. cbn [selected negb orb]. unfold selected. cbn [negb orb]. f_equal. clear. generalize (sort_by str_ltb (names (tables package src))) as ks.
      induction ks as [|k ks IH]; [reflexivity|]. cbn. f_equal. exact IH.
Qed.
(** If the files can be read and the package knows every parameter, there is a result. *)
Theorem C79_exists : (forall p, In p fulls -> exists c, load p = Ok c) -> (forall k, In k (names (tables package src)) -> exists d, shown_default package k = Ok d) ->
  exists args, build_arg_dict package fullpath load files src diff named = Ok args.
Proof using FULL NONE PROPER.
  intros L DEF. destruct columns_exist as (ps & labels & NP & D & NE & labels' & LEN & NDL & MAP & _).
  unfold build_arg_dict. rewrite NP. cbn [bind]. rewrite MAP.
  assert (IN : forall p, In p ps -> In p fulls).
  { clear -D. induction D; intros p I; [destruct I|apply in_or_app; left; auto|]. apply in_app_or in I as [I|I]; apply in_or_app; auto. }
  assert (T : exists targets, mapM (fun pl => c <- load (fst pl) ;; Ok (snd pl, c)) (combine ps labels') = Ok targets).
  { assert (L' : forall p, In p ps -> exists c, load p = Ok c) by (intros p I; apply L, IN, I). clear -L' LEN. revert labels' LEN.
    induction ps as [|p ps IH]; intros [|l labels] LEN; cbn in *; try discriminate; [eauto|]. destruct (L' p (or_introl eq_refl)) as (c & ->). cbn.
    destruct (IH (fun q I => L' q (or_intror I)) labels) as (ts & ->); [lia|]. cbn. eauto. }
  destruct T as (targets & T). rewrite T. cbn [bind]. apply loaded_columns in T as (TL & TF); [|exact LEN].
  rewrite (dict_of_nodup str_eqb str_decides) by (rewrite TL; exact NDL).
  assert (TNE : targets <> []) by (intros ->; inversion TF; subst; congruence).
  destruct (build_total package diff targets TNE (sort_by str_ltb (names (tables package src)))) with (built := map (fun k : str => (k, @nil (str * str))) (sort_by str_ltb (names (tables package src)))) as (b & ->).
  { intros k I. apply DEF. apply sort_by_in in I. exact I. }
  cbn. eauto.
Qed.
(** The printed text: if no value has more than 76 characters, all the lines of the table are
    equally long, with the labels on the left and the values on the right and two blanks at
    least between them. *)
Theorem C79_table args lines : build_arg_dict package fullpath load files src diff named = Ok args ->
  compare_config_files package fullpath load files src diff named = Ok lines ->
  (forall g r, In g args -> In r (snd g) -> length (snd r) <= 76) -> printed 2 args lines.
Proof using FULL NONE PROPER SETTINGS NAMES.
  intros B E V. unfold compare_config_files in E. destruct files as [|f0 fs] eqn:FS; [congruence|]. rewrite B in E. cbn [bind] in E.
  rewrite <- FS in *. destruct (C79_groups args) as (ps & cols & shown & groups & _ & _ & _ & _ & _ & G & _ & A); [exact B|].
  apply (layout_printed args lines (map fst cols) E); [|exact V].
  intros g I. rewrite A in I. apply in_app_or in I as [I|I].
  - destruct diff; [destruct I|]. apply in_map_iff in I as (k & <- & _). left. reflexivity.
  - right. clear -G I. induction G as [|k g' ks gs (d & _ & _ & F2) G IH]; [destruct I|]. destruct I as [<-|I]; [|apply IH, I].
    clear -F2. induction F2 as [|c r cs rs (E & _) F2 IH]; [reflexivity|]. cbn. congruence.
Qed.
(** If no parameter is to be shown, the command stops with an error instead of printing an
    empty table: so it does for files that agree, with the option for differences. *)
Theorem C79_no_difference_refuted args : diff = true -> build_arg_dict package fullpath load files src diff named = Ok args ->
  (forall key a b v w, In key (names (tables package src)) -> forall ps cols, distinct_in_order fulls ps -> Forall2 (fun p c => load p = Ok c) ps cols ->
     In a cols -> In b cols -> displays (settings a) (shown_value a) key v -> displays (settings b) (shown_value b) key w -> v = w) ->
  compare_config_files package fullpath load files src diff named = Raise (OtherError "StopIteration").
Proof using FULL NONE PROPER SETTINGS NAMES.
  intros DT B H. unfold compare_config_files. destruct files as [|f0 fs] eqn:FS; [congruence|]. rewrite B. cbn [bind].
  rewrite <- FS in *. destruct (C79_groups args) as (ps & cols & shown & groups & D & L & _ & _ & _ & G & K & A); [exact B|].
  assert (shown = []) as ->.
  { destruct shown as [|k shown]; [reflexivity|]. exfalso. destruct (proj1 (K k) (or_introl eq_refl)) as (I & X). destruct (X DT) as (a & b & v & w & Ia & Ib & Da & Db & N).
    apply N. apply (H k (snd a) (snd b) v w I ps (map snd cols) D); [|apply in_map, Ia|apply in_map, Ib|exact Da|exact Db].
    clear -L. induction L; constructor; assumption. }
  inversion G; subst. reflexivity.
Qed.
End Groups.
Print Assumptions C79_groups. Print Assumptions C79_exists. Print Assumptions C79_table. Print Assumptions C79_no_difference_refuted.
