(** * C64: when a default agrees with the settings of other parameters *)
From Verif Require Import PyBase PyLemmas SymbolicModel SymbolicSpec ContainerModel ContainerProofs ContainerProofs2 AliasedModel ConfigModel ConfigSpec ConfigProofs ParameterModel ParameterSpec ParameterNumbers ParameterTables ParameterProofs ParameterProperties ParameterRuntime.
From Coq Require Import Lia.

(** The parameters that the user has not set, and the parameters with the texts that the user gave. *)
Definition unset (c : list (str * str)) (parameters : list (str * (kind * str))) : list (str * (kind * str)) :=
  filter (fun p => negb (mem str_eqb (fst p) (map fst c))) parameters.
Definition with_settings (c : list (str * str)) (parameters : list (str * (kind * str))) : list (str * (kind * str)) :=
  map (fun p => match lookup str_eqb c (fst p) with Ok y => (fst p, (fst (snd p), y)) | Raise _ => p end) parameters.

Lemma unset_in c ps p : In p (unset c ps) <-> In p ps /\ ~ In (fst p) (map fst c).
Proof.
  unfold unset. rewrite filter_In. split; intros (I & N); (split; [exact I|]).
  - apply (mem_false str_eqb str_decides). destruct (mem str_eqb (fst p) (map fst c)); [discriminate N|reflexivity].
  - apply (mem_false str_eqb str_decides) in N. rewrite N. reflexivity.
Qed.
Lemma with_settings_names c ps : map fst (with_settings c ps) = map fst ps.
Proof. unfold with_settings. rewrite map_map. apply map_ext. intros p. destruct (lookup str_eqb c (fst p)); reflexivity. Qed.
Lemma with_settings_in c ps p : In p (unset c ps) -> In p (with_settings c ps).
Proof.
  intros I. apply unset_in in I as (I & N). unfold with_settings. apply in_map_iff. exists p. split; [|exact I].
  rewrite (proj2 (lookup_missing str_eqb str_decides c (fst p) KeyError)); [reflexivity|]. split; [reflexivity|exact N].
Qed.
Lemma constant_known constants name q : constant_value constants name q -> In name (map fst constants).
Proof. intros H. destruct H; exact (in_map fst _ _ H). Qed.
(** More parameters do not change a value that can be computed without them. *)
Lemma definition_more constants few many fine name q :
  (forall p, In p few -> In p many) -> (forall x, In x (map fst many) -> ~ In x (map fst few) -> ~ In x (map fst constants)) ->
  definition_value constants few fine name q -> definition_value constants many fine name q.
Proof.
  intros I N H. induction H.
  - apply DV_numeral; assumption.
  - apply DV_third.
  - eapply DV_literal; eauto.
  - eapply DV_definition; eauto.
  - apply DV_constant; [|assumption]. intros K. exact (N name K H (constant_known _ _ _ H0)).
  - apply DV_member; assumption.
  - eapply DV_sum; eauto.
  - eapply DV_difference; eauto.
  - apply DV_product; assumption.
Qed.

Section Follow.
Context (libm : Qc -> Qc -> option Qc) (constants : list (str * (bool * str))) (parameters : list (str * (kind * str))).
Context (locals : list (str * pvalue)) (units : list (str * option str)) (aliases : list (list str)) (same : group -> group -> bool).
Notation open := (interface libm (texts_of constants) (types_of constants) (reference_of parameters) locals units (groups_init aliases) same).
Notation nonzero := (fun q : Qc => q <> 0%Qc).

(** A parameter that is not set has the value of its definition at the user's values if this value
    can be computed without the parameters that are set.  Missing: definitions that refer to them
    (see the refutations). *)
Theorem C64_partial fuel c i name k q : tables_ok constants parameters -> usable (reference_of parameters) locals aliases same ->
  open fuel (Some c) = Ok i -> In name (map fst parameters) -> ~ In name (map fst c) ->
  (forall x, In x (map fst c) -> ~ In x (map fst constants)) ->
  definition_value constants (unset c parameters) nonzero name q -> called aliases name k ->
  definition_value constants (with_settings c parameters) nonzero name q /\ getitem i k = Ok (PNum q, unit_of units name).
Proof using.
  clear. intros T U E I N D V C.
  assert (X : forall x, In x (map fst parameters) -> ~ In x (map fst (unset c parameters)) -> ~ In x (map fst constants)).
  { intros x Ix Nx. apply D. destruct (mem str_eqb x (map fst c)) eqn:M; [apply (mem_spec str_eqb str_decides), M|]. exfalso. apply Nx.
    apply in_map_iff in Ix as (p & <- & Ip). apply in_map. apply unset_in. split; [exact Ip|]. apply (mem_false str_eqb str_decides), M. }
  split.
  - apply (definition_more constants (unset c parameters)); [intros p; apply with_settings_in|rewrite with_settings_names; exact X|exact V].
  - assert (V' : definition_value constants parameters nonzero name q).
    { apply (definition_more constants (unset c parameters)); [intros p Ip; apply unset_in in Ip; apply Ip|exact X|exact V]. }
    destruct (C34_arithmetic_partial libm constants parameters name q T I V') as (n0 & H).
    apply in_map_iff in I as ((nm & (kd & text)) & Enm & I). cbn [fst] in Enm. subst nm.
    assert (I' : In (name, (ktype kd, text)) (reference_of parameters)) by (unfold reference_of; apply in_map_iff; exists (name, (kd, text)); split; [reflexivity|exact I]).
    pose proof (C35_value _ _ _ _ _ _ _ _ _ _ _ U E name _ _ k I' C) as W. cbn [setting] in W.
    rewrite (proj2 (lookup_missing str_eqb str_decides c name KeyError) (conj eq_refl N)) in W. destruct W as (v & W & G). rewrite G.
    pose proof (C34_fuel _ _ _ _ _ _ _ W (fuel + n0)%nat ltac:(lia)) as W'. rewrite (H (fuel + n0)%nat ltac:(lia)) in W'. injection W' as <-. reflexivity.
Qed.
(** Refuted in general: the value of a parameter that is not set is the same whatever the user sets. *)
Theorem C64_same_for_all_settings_refuted fuel cfg cfg' i i' name k : usable (reference_of parameters) locals aliases same ->
  open fuel cfg = Ok i -> open fuel cfg' = Ok i' -> In name (map fst parameters) ->
  (forall y, setting cfg name <> Ok y) -> (forall y, setting cfg' name <> Ok y) -> called aliases name k ->
  getitem i k = getitem i' k /\ exists v, getitem i k = Ok v.
Proof using.
  clear. intros U E E' I N N' C. apply in_map_iff in I as ((nm & (kd & text)) & Enm & I). cbn [fst] in Enm. subst nm.
  assert (I' : In (name, (ktype kd, text)) (reference_of parameters)) by (unfold reference_of; apply in_map_iff; exists (name, (kd, text)); split; [reflexivity|exact I]).
  pose proof (C35_value _ _ _ _ _ _ _ _ _ _ _ U E name _ _ k I' C) as W. pose proof (C35_value _ _ _ _ _ _ _ _ _ _ _ U E' name _ _ k I' C) as W'.
  destruct (setting cfg name) as [y|]; [destruct (N y eq_refl)|]. destruct (setting cfg' name) as [y|]; [destruct (N' y eq_refl)|].
  destruct W as (v & W & G), W' as (v' & W' & G'). rewrite W in W'. injection W' as <-. rewrite G, G'. split; [reflexivity|]. eexists. reflexivity.
Qed.
End Follow.
Print Assumptions C64_partial.
Print Assumptions C64_same_for_all_settings_refuted.

(** The shipped tables: the stop time, which is the start time plus one step, when other parameters are set. *)
Definition settings_case : list (str * str) := [(s "numEnergySteps", s "40"); (s "kperxkpar", s "0.5")].
Example C64_case libm : tables_ok shipped_constants shipped_parameters /\ usable (reference_of shipped_parameters) shipped_locals shipped_aliases group_eqb /\
  (exists i, shipped_interface libm 8 (Some settings_case) = Ok i) /\ ~ In (s "simStopTime") (map fst settings_case) /\
  (forall x, In x (map fst settings_case) -> ~ In x (map fst shipped_constants)) /\
  definition_value shipped_constants (unset settings_case shipped_parameters) (fun q => q <> 0%Qc) (s "simStopTime") (0 + mkq 1041666666667 100000000000000)%Qc.
Proof.
  split; [exact C34_shipped_tables_ok|]. split; [exact C35_shipped_usable|]. split; [apply C35_shipped_interface; lia|].
  split; [intros H; cbn in H; repeat destruct H as [H|H]; try discriminate H; exact H|].
  assert (F : forall n k t, lookup str_eqb (unset settings_case shipped_parameters) n = Ok (k, t) -> In (n, (k, t)) (unset settings_case shipped_parameters)).
  { intros n k t H. apply (lookup_in str_eqb str_decides) in H; [exact H|]. apply distinct_nodup. vm_compute. reflexivity. }
  split.
  - assert (H : forallb (fun x => negb (mem str_eqb x (map fst shipped_constants))) (map fst settings_case) = true) by (vm_compute; reflexivity).
    intros x I. rewrite forallb_forall in H. apply H in I. apply (mem_false str_eqb str_decides). destruct (mem str_eqb x (map fst shipped_constants)); [discriminate I|reflexivity].
  - apply (DV_definition _ _ _ (s "simStopTime") KFloat false (s "config.simStartTime + config.tDel")); [apply F; vm_compute; reflexivity|reflexivity| |].
    + intros r H. apply cast_numeral in H. vm_compute in H. discriminate H.
    + apply (DV_sum _ _ _ (s "config.simStartTime ") (s " config.tDel") (s "config.simStartTime") (s "config.tDel")).
      * intros I. cbn in I. repeat destruct I as [I|I]; try discriminate I; exact I.
      * intros I. cbn in I. repeat destruct I as [I|I]; try discriminate I; exact I.
      * exact (strip_trimmed (s "config.simStartTime ")).
      * exact (strip_trimmed (s " config.tDel")).
      * intros r H. apply cast_numeral in H. vm_compute in H. discriminate H.
      * apply (DV_member _ _ _ (s "simStartTime")); [split; [reflexivity|repeat constructor]|]. apply (DV_literal _ _ _ (s "simStartTime") KFloat false (s "0.0")); [apply F; vm_compute; reflexivity|reflexivity|].
        apply float_numeral. vm_compute. f_equal; apply Qc_is_canon; reflexivity.
      * apply (DV_member _ _ _ (s "tDel")); [split; [reflexivity|repeat constructor]|]. apply (DV_literal _ _ _ (s "tDel") KFloat false (s "0.01041666666667")); [apply F; vm_compute; reflexivity|reflexivity|].
        apply float_numeral. vm_compute. f_equal; apply Qc_is_canon; reflexivity.
      * intros H. apply (f_equal this) in H. vm_compute in H. discriminate H.
Qed.
