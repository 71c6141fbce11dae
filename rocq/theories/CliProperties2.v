(** * C79: concrete comparisons, refutations, and generated configuration files *)
From Verif Require Import PyBase PyLemmas ContainerModel ContainerProofs ContainerProofs2 SymbolicModel SymbolicProofs
  ConfigModel ConfigSpec ConfigProofs ConfigProperties AliasedModel ParameterModel ParameterSpec ParameterTables ParameterProperties ParameterRuntime
  CliModel CliSpec CliProofs CliProperties.
From Coq Require Import Permutation Sorted.
Local Open Scope nat_scope.

(** ** Without the option for differences *)
(** Every parameter is printed twice: once as a group without rows, before all the groups with
    the values. *)
Theorem C79_once_refuted package fullpath load files fulls src named args :
  Forall2 (fun a p => fullpath a = Ok p) files fulls -> files <> [] -> Forall proper_path fulls ->
  (forall p c, load p = Ok c -> NoDup (map fst (settings c))) ->
  NoDup (names (tables package src)) -> Forall proper_name (names (tables package src)) ->
  build_arg_dict package fullpath load files src false named = Ok args ->
  forall key, In key (names (tables package src)) -> In (key, []) args /\ exists g, In g args /\ snd g <> [] /\ exists d, fst g = s "  " ++ key ++ s " (default: " ++ d ++ s ")  ".
Proof.
  intros A B C D E F G key I. destruct (C79_groups package fullpath load files fulls src false named A B C D (conj E F) args G)
    as (ps & cols & shown & groups & DI & L & _ & _ & _ & GR & K & ->).
  assert (IS : In key shown) by (apply K; split; [exact I|discriminate]). split.
  - apply in_or_app. left. apply in_map_iff. exists key. auto.
  - assert (NE : cols <> []).
    { intros ->. inversion L; subst. inversion DI as [Z|all x l DI' IN Z|all x l DI' IN Z Z2]; subst.
      - inversion A; subst. congruence.
      - clear -DI' IN. remember [] as l eqn:El. induction DI'; [destruct IN| |destruct l; discriminate].
        apply in_app_or in IN as [IN|[<-|[]]]; apply IHDI'; assumption.
      - destruct l; discriminate. }
    clear -GR IS NE. induction GR as [|k g ks gs (d & _ & H & F2) GR IH]; [destruct IS|]. destruct IS as [->|IS].
    + exists g. split; [apply in_or_app; right; left; reflexivity|]. split; [intros Z; rewrite Z in F2; inversion F2; subst; congruence|]. exists d. exact H.
    + destruct (IH IS) as (g' & I & R). exists g'. split; [|exact R]. apply in_app_or in I as [I|I]; apply in_or_app; [left|right; right; exact I].
      cbn. right. exact I.
Qed.
Print Assumptions C79_once_refuted.

(** ** A concrete package: two parameters, two files *)
Definition ex_default (k : str) : result str :=
  if str_eqb k (s "eMin") then Ok (s "1.0 'MeV'") else if str_eqb k (s "idealShock") then Ok (s "0") else Raise KeyError.
Definition ex_package : source := {| names := [s "idealShock"; s "eMin"]; shown_default := ex_default; written_default := ex_default |}.
Definition ex_a : config := {| settings := [(s "eMin", s "2"); (s "idealShock", [])]; shown_value := fun k => if str_eqb k (s "eMin") then s "2.0 'MeV'" else s "0" |}.
Definition ex_b : config := {| settings := [(s "idealShock", s "0")]; shown_value := fun k => if str_eqb k (s "eMin") then s "1.0 'MeV'" else s "0" |}.
Definition ex_fullpath (a : str) : result path :=
  if str_eqb a (s "a.cfg") || str_eqb a (s "./a.cfg") then Ok [s "home"; s "runs"; s "a.cfg"]
  else if str_eqb a (s "/home/b.cfg") then Ok [s "home"; s "b.cfg"] else Raise (OtherError "NonExistentPathError").
Definition ex_load (p : path) : result config := if str_eqb (last p []) (s "a.cfg") then Ok ex_a else Ok ex_b.
Example C79_example : compare_config_files ex_package ex_fullpath ex_load [s "a.cfg"; s "/home/b.cfg"; s "./a.cfg"] None true true = Ok
  [s "";
   s "  eMin (default: 1.0 'MeV')  ";
   s "-----------------------------";
   s "runs/a.cfg          2.0 'MeV'";
   s "b.cfg               (default)";
   s "";
   s "   idealShock (default: 0)   ";
   s "-----------------------------";
   s "runs/a.cfg          (default)";
   s "b.cfg                       0";
   s ""].
Proof. vm_compute. reflexivity. Qed.
Example C79_example_hypotheses : let fulls := [[s "home"; s "runs"; s "a.cfg"]; [s "home"; s "b.cfg"]] in
  Forall2 (fun a p => ex_fullpath a = Ok p) [s "a.cfg"; s "/home/b.cfg"] fulls /\ Forall proper_path fulls /\
  (forall p c, ex_load p = Ok c -> NoDup (map fst (settings c))) /\ NoDup (names ex_package) /\ Forall proper_name (names ex_package).
Proof.
  cbv zeta. split; [repeat constructor|]. split; [|split; [|split]].
  - repeat constructor; try discriminate; intros H; cbn in H; repeat (destruct H as [H|H]; [discriminate H|]); destruct H.
  - intros p c. unfold ex_load. destruct (str_eqb _ _); intros E; injection E as <-; cbn.
    + constructor; [intros [H|[]]; discriminate H|]. constructor; [intros []|constructor].
    + constructor; [intros []|constructor].
  - cbn. constructor; [intros [H|[]]; discriminate H|]. constructor; [intros []|constructor].
  - cbn. constructor; [|constructor; [|constructor]]; (split; [discriminate|]); intros H; cbn in H; repeat (destruct H as [H|H]; [discriminate H|]); destruct H.
Qed.
(** In the example the parameter idealShock is reported as different although both files give
    it the same value, 0: one sets it to its default, the other one leaves it (or leaves its
    setting empty). *)
Theorem C79_explicit_default_refuted :
  ex_default (s "idealShock") = Ok (shown_value ex_a (s "idealShock")) /\ shown_value ex_a (s "idealShock") = shown_value ex_b (s "idealShock") /\
  exists args, build_arg_dict ex_package ex_fullpath ex_load [s "a.cfg"; s "/home/b.cfg"] None true false = Ok args /\
    In (s "  idealShock (default: 0)  ", [(s "0", s "(default)"); (s "1", s "0")]) args.
Proof. split; [reflexivity|]. split; [reflexivity|]. eexists. split; [vm_compute; reflexivity|]. cbn. auto. Qed.
(** The defaults shown are those of the package, not those of the source directory that is
    given; a parameter that only the source directory knows stops the command. *)
Theorem C79_source_defaults_refuted package fullpath load files other d n :
  build_arg_dict package fullpath load files (Some other) d n =
  build_arg_dict package fullpath load files (Some {| names := names other; shown_default := fun _ => Raise KeyError; written_default := written_default other |}) d n.
Proof. reflexivity. Qed.
Print Assumptions C79_source_defaults_refuted.
Lemma build_raise package diff targets key e : shown_default package key = Raise e -> forall keys built, In key keys -> exists e', build package diff targets keys built = Raise e'.
Proof.
  intros E. induction keys as [|k keys IH]; intros built I; [destruct I|]. cbn [build]. destruct I as [->|I]; [rewrite E; cbn; eauto|].
  destruct (shown_default package k); cbn [bind]; [|eauto]. destruct (map_parameter k targets) as [|(k0 & v0) r]; [eauto|]. apply IH, I.
Qed.
Theorem C79_new_parameter_refuted package fullpath load files other d n key e : In key (names other) -> shown_default package key = Raise e ->
  exists e', compare_config_files package fullpath load files (Some other) d n = Raise e'.
Proof.
  intros I E. unfold compare_config_files. destruct files as [|f fs]; [eauto|]. unfold build_arg_dict. cbn [tables].
  destruct (normalize_paths _ _) as [np|e1]; cbn [bind]; [|eauto]. destruct (mapM _ _) as [ts|e1]; cbn [bind]; [|eauto].
  assert (IS : In key (sort_by str_ltb (names other))) by (apply sort_by_in, I).
  destruct (build_raise package d (dict_of str_eqb ts) key e E _ (map (fun k => (k, [])) (sort_by str_ltb (names other))) IS) as (e' & ->). cbn. eauto.
Qed.
Print Assumptions C79_new_parameter_refuted.
Example C79_new_parameter_example : In (s "eMax") [s "eMax"] /\ shown_default ex_package (s "eMax") = Raise KeyError.
Proof. split; [left; reflexivity|reflexivity]. Qed.
(** A value of 78 characters or more: the label and the value run together, and lines may be
    longer than the table. *)
Definition long_config (n : nat) : config := {| settings := [(s "eMin", s "2")]; shown_value := fun _ => repeat "9"%char n |}.
Theorem C79_long_values_refuted :
  (exists l1 l2, compare_config_files ex_package ex_fullpath (fun _ => Ok (long_config 78)) [s "a.cfg"] None false false = Ok (l1 ++ ("0"%char :: repeat "9"%char 78) :: l2)) /\
  (exists l1 l2, compare_config_files ex_package ex_fullpath (fun _ => Ok (long_config 90)) [s "a.cfg"] None false false = Ok (l1 ++ [repeat "-"%char 79; "0"%char :: repeat "9"%char 90] ++ l2)).
Proof.
  split.
  - exists (firstn 9 (match compare_config_files ex_package ex_fullpath (fun _ => Ok (long_config 78)) [s "a.cfg"] None false false with Ok l => l | Raise _ => [] end)),
           (skipn 10 (match compare_config_files ex_package ex_fullpath (fun _ => Ok (long_config 78)) [s "a.cfg"] None false false with Ok l => l | Raise _ => [] end)).
    vm_compute. reflexivity.
  - exists (firstn 8 (match compare_config_files ex_package ex_fullpath (fun _ => Ok (long_config 90)) [s "a.cfg"] None false false with Ok l => l | Raise _ => [] end)),
           (skipn 10 (match compare_config_files ex_package ex_fullpath (fun _ => Ok (long_config 90)) [s "a.cfg"] None false false with Ok l => l | Raise _ => [] end)).
    vm_compute. reflexivity.
Qed.
Example C79_no_difference_example : compare_config_files ex_package ex_fullpath (fun _ => Ok ex_a) [s "a.cfg"; s "/home/b.cfg"] None true false = Raise (OtherError "StopIteration").
Proof. vm_compute. reflexivity. Qed.

(** ** The command *)
Theorem C79_run package fullpath load now mode o :
  (mode <> s "configfile" -> run package fullpath load now mode o = Raise (OtherError "CLIError")) /\
  (mode = s "configfile" -> forall target text, o_generate o = Some target -> target <> [] -> generate_config_file package now (o_source o) = Ok text ->
     run package fullpath load now mode o = Ok (Wrote text)) /\
  (mode = s "configfile" -> o_generate o = None -> o_files o <> [] -> forall lines,
     compare_config_files package fullpath load (o_files o) (o_source o) (o_diff o) (o_names o) = Ok lines -> run package fullpath load now mode o = Ok (Printed lines)) /\
  (mode = s "configfile" -> o_generate o = None -> o_files o = [] -> run package fullpath load now mode o = Ok Nothing).
Proof.
  unfold run. split; [|split; [|split]].
  - intros N. destruct (str_eqb_spec mode (s "configfile")); [contradiction|reflexivity].
  - intros -> target text E NE G. rewrite str_eqb_refl, E. destruct target; [congruence|]. rewrite G. reflexivity.
  - intros -> E NE lines C. rewrite str_eqb_refl, E. destruct (o_files o) as [|f fs]; [congruence|]. rewrite C. reflexivity.
  - intros -> E NE. rewrite str_eqb_refl, E, NE. reflexivity.
Qed.
Print Assumptions C79_run.

(** ** Generated files *)
(** The text that is written is a configuration file that sets every parameter of the source
    (and nothing else), in alphabetical order, to the text of its default. *)
Theorem C79_generate package now src text : generate_config_file package now src = Ok text -> one_line now ->
  NoDup (names (tables package src)) ->
  (forall k v, In k (names (tables package src)) -> written_default (tables package src) k = Ok v -> k <> [] /\ plain ["#"%char] k /\ plain ["#"%char] v) ->
  exists pairs, config_parsed [] text = Ok pairs /\ Permutation (map fst pairs) (names (tables package src)) /\
    StronglySorted (fun a b => str_ltb a b = true) (map fst pairs) /\
    forall k v, In (k, v) pairs <-> In k (names (tables package src)) /\ written_default (tables package src) k = Ok v.
Proof.
  intros E ON ND PL. unfold generate_config_file in E. apply bind_ok in E as (pairs & M & E).
  assert (TX : text = text_of ["010"%char] (written_lines now pairs) []) by (unfold text_of; rewrite app_nil_r; symmetry; exact (f_equal (fun r => match r with Ok x => x | Raise _ => [] end) E)). clear E.
  assert (F2 : Forall2 (fun k kv => fst kv = k /\ written_default (tables package src) k = Ok (snd kv)) (sort_by str_ltb (names (tables package src))) pairs).
  { apply mapM_Forall2 in M. clear -M. induction M as [|k kv ks kvs H M IH]; constructor; [|exact IH]. apply bind_ok in H as (v & W & H). injection H as <-. auto. }
  assert (FST : map fst pairs = sort_by str_ltb (names (tables package src))).
  { clear -F2. induction F2 as [|k kv ks kvs (A & _) F2 IH]; [reflexivity|]. cbn. congruence. }
  assert (IN : forall k v, In (k, v) pairs <-> In k (names (tables package src)) /\ written_default (tables package src) k = Ok v).
  { intros k v. rewrite <- (sort_by_in str_ltb). clear -F2. induction F2 as [|k' (k1 & v1) ks kvs (A & W) F2 IH]; [cbn; tauto|]. cbn in A, W. subst k1. cbn [In]. rewrite IH. split.
    - intros [H|(H & W')]; [injection H as -> ->; auto|auto].
    - intros ([->|H] & W'); [left; congruence|auto]. }
  assert (PP : Forall (fun kv => fst kv <> [] /\ plain ["#"%char] (fst kv) /\ plain ["#"%char] (snd kv)) pairs).
  { apply Forall_forall. intros (k & v) I. apply IN in I as (I & W). exact (PL k v I W). }
  exists pairs. split; [|split; [rewrite FST; apply Permutation_sym, sort_by_perm|split; [rewrite FST; apply sort_str_sorted, ND|exact IN]]].
  assert (NDP : NoDup (map fst pairs)) by (rewrite FST; eapply Permutation_NoDup; [apply sort_by_perm|exact ND]).
  clear F2 FST IN M PL ND.
  assert (OL : Forall one_line (written_lines now pairs)).
  { unfold written_lines. apply Forall_app. split.
    - assert (Z : forall x, forallb (fun c => negb (existsb (Ascii.eqb c) ["010"%char; "013"%char])) x = true -> one_line x).
      { intros x H. rewrite forallb_forall in H. split; intros I; apply H in I; discriminate I. }
      constructor; [apply Z; reflexivity|]. constructor; [|constructor; [apply Z; reflexivity|constructor]].
      destruct ON as (A & B). split; intros I; apply in_app_or in I as [I|I]; try contradiction; cbn in I; repeat (destruct I as [I|I]; [discriminate I|]); destruct I.
    - apply Forall_app. split.
      + rewrite Forall_map. eapply Forall_impl; [|exact PP]. intros (k & v) (_ & ((K1 & K2) & _) & ((V1 & V2) & _)). cbn [fst snd] in *.
        split; intros H; apply in_app_or in H as [H|H]; auto; cbn in H; repeat (destruct H as [H|H]; [discriminate|]); auto.
      + constructor; [|constructor]. split; intros I; cbn in I; repeat (destruct I as [I|I]; [discriminate I|]); destruct I. }
  unfold config_parsed, parse_config. change (comments_of []) with (markers ["#"%char]).
  rewrite TX.
  rewrite C32_lines; [|left; reflexivity|exact OL|split; intros []].
  assert (COMMENT : forall x, parse_line (markers ["#"%char]) ("#"%char :: x) = Ok None).
  { intros x. apply (proj1 (C32_line ["#"%char] _)). left. reflexivity. }
  assert (G : forall d, NoDup (map fst (d ++ pairs)) -> forall tail, (forall d', parse_lines (markers ["#"%char]) tail d' = Ok d') ->
     parse_lines (markers ["#"%char]) (map (fun kv : str * str => fst kv ++ s "=" ++ snd kv) pairs ++ tail) d = Ok (d ++ pairs)).
  { clear NDP OL ON TX. induction PP as [|(k & v) pairs (NEk & PK & PV) F IH]; intros d ND tail T; cbn [map app parse_lines fst snd]; [rewrite T, app_nil_r; reflexivity|].
    cbn [fst snd] in *.
    assert (A : assigns ["#"%char] (k ++ s "=" ++ v) k v).
    { exists k, v. destruct PK as (_ & SK & PK). destruct PV as (_ & SV & PV). split.
      - exists []. split; [rewrite app_nil_r; reflexivity|]. split; [|exact I].
        intros c H. apply in_app_or in H as [H|[<-|H]]; [apply PK, H|intros [Z|[]]; discriminate Z|apply PV, H].
      - split; [intros H; apply PK in H as (_ & H); congruence|]. split; [intros H; apply PV in H as (_ & H); congruence|].
        split; apply trimmed_iff; symmetry; assumption. }
    rewrite (proj2 (proj1 (proj2 (C32_line ["#"%char] _)) k v) A). cbn [bind].
    rewrite (dict_put_new str_eqb str_decides).
    - rewrite IH; [rewrite <- app_assoc; reflexivity|rewrite <- app_assoc; exact ND|exact T].
    - rewrite map_app in ND. cbn [map fst] in ND. apply NoDup_remove_2 in ND. intros H. apply ND, in_or_app. left. exact H. }
  unfold written_lines. cbn [app parse_lines].
  change (s "# EPREM default configuration file") with ("#"%char :: s " EPREM default configuration file"). rewrite COMMENT. cbn [bind].
  change (s "# Generated at " ++ now) with ("#"%char :: (s " Generated at " ++ now)). rewrite COMMENT. cbn [bind].
  change (s "# --------------------------------") with ("#"%char :: s " --------------------------------"). rewrite COMMENT. cbn [bind].
  rewrite <- app_assoc. apply (G []); [exact NDP|]. intros d'. cbn [app parse_lines]. rewrite COMMENT. cbn [bind].
  reflexivity.
Qed.
Print Assumptions C79_generate.
Example C79_generate_example : generate_config_file ex_package (s "2026-11-18 12:00:00") None = Ok (s "# EPREM default configuration file
# Generated at 2026-11-18 12:00:00
# --------------------------------
eMin=1.0 'MeV'
idealShock=0
# --------------------------------
").
Proof. vm_compute. reflexivity. Qed.
