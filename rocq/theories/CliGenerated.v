(** * C79: what a generated configuration file means *)
From Verif Require Import PyBase PyLemmas ContainerModel ContainerProofs ContainerProofs2 SymbolicModel SymbolicProofs
  ConfigModel ConfigSpec ConfigProofs ConfigProperties AliasedModel AliasedSpec AliasedProofs ParameterModel ParameterSpec ParameterTables ParameterNumbers ParameterProperties ParameterRuntime.
From Verif Require CliModel.
Local Open Scope nat_scope.

(** A run whose configuration file is the generated one gives every parameter the default it
    has without a configuration file, if the default is a number whose text is that number, or
    a text. *)
Lemma bracket_no_numeral x q : numeral ("["%char :: x) q -> False.
Proof.
  intros N. apply float_numeral in N. unfold float_of_str in N.
  assert (E : strip ("["%char :: x) = "["%char :: rstrip x).
  { unfold strip. change (lstrip ("["%char :: x)) with ("["%char :: x). exact (rstrip_app_solid [] "["%char x eq_refl). }
  rewrite E in N. discriminate N.
Qed.
Lemma numeral_not_list x q : numeral x q -> convert x TList = PStr x.
Proof.
  intros N. unfold convert, stringlist. destruct (starts (s "[") x) eqn:S0; cbn [andb]; [|reflexivity].
  exfalso. destruct x as [|c x]; [discriminate S0|]. cbn [s starts] in S0. apply andb_true_iff in S0 as (S0 & _). apply Ascii.eqb_eq in S0. subst c.
  exact (bracket_no_numeral _ _ N).
Qed.
Section Values.
Variables (libm : Qc -> Qc -> option Qc) (consts : list (str * str)) (ctypes : list (str * bool)).
Variables (params : list (str * (ptype * str))) (locals : list (str * pvalue)) (units : list (str * option str)) (aliases : list (list str)) (same : group -> group -> bool).
Variable fuel : nat.
Hypothesis U : usable params locals aliases same.
(** what is printed for the numbers of a parameter of each type *)
Variable num : ptype -> Qc -> str.
Variables (i0 i1 : entries (pvalue * option str)) (pairs : list (str * str)).
Hypothesis DEFAULTS : interface libm consts ctypes params locals units (groups_init aliases) same fuel None = Ok i0.
Hypothesis READ : interface libm consts ctypes params locals units (groups_init aliases) same fuel (Some pairs) = Ok i1.
Hypothesis KEYS : NoDup (map fst pairs).
(** every parameter is written with the text of its default *)
Hypothesis WRITTEN : forall name t text, In (name, (t, text)) params -> exists vu w, getitem i0 name = Ok vu /\ CliModel.written_value (num t) vu = Ok w /\ In (name, w) pairs.

Lemma generated_value name t text k v u w : In (name, (t, text)) params -> called aliases name k -> getitem i0 k = Ok (v, u) ->
  CliModel.written_value (num t) (v, u) = Ok w -> getitem i1 k = Ok (convert w t, u).
Proof using U DEFAULTS READ KEYS WRITTEN.
  intros I C G W. pose proof (C35_value _ _ _ _ _ _ _ _ _ _ _ U DEFAULTS name t text k I C) as V0. cbn [setting] in V0. destruct V0 as (v' & D & V0).
  pose proof (C35_value _ _ _ _ _ _ _ _ _ _ _ U DEFAULTS name t text name I (or_introl eq_refl)) as V1. cbn [setting] in V1. destruct V1 as (v'' & D' & V1).
  destruct (WRITTEN name t text I) as (vu & w' & Gn & Wn & In').
  pose proof (C35_value _ _ _ _ _ _ _ _ _ _ _ U READ name t text k I C) as V2. cbn [setting] in V2.
  rewrite (proj2 (lookup_in str_eqb str_decides _ _ _ KEYS) In') in V2.
  assert (E1 : v'' = v') by congruence. assert (E2 : (v, u) = (v', unit_of units name)) by congruence. injection E2 as -> ->. subst v''.
  assert (vu = (v', unit_of units name)) as -> by congruence. assert (w' = w) as -> by congruence. exact V2.
Qed.
Theorem C79_generate_numbers name t text k q u : In (name, (t, text)) params -> called aliases name k -> getitem i0 k = Ok (PNum q, u) ->
  (t = TInt /\ integer_numeral (num t q) q \/ t = TFloat /\ numeral (num t q) q) -> getitem i1 k = Ok (PNum q, u).
Proof using U DEFAULTS READ KEYS WRITTEN.
  intros I C G H. rewrite (generated_value name t text k (PNum q) u (num t q) I C G); [|reflexivity].
  destruct H as [(-> & N)|(-> & N)].
  - rewrite (proj2 (proj1 (proj2 (C35_conversion (num TInt q) q)))) by exact N. reflexivity.
  - rewrite (proj2 (proj1 (C35_conversion (num TFloat q) q))) by exact N. reflexivity.
Qed.
Theorem C79_generate_texts name text k x : In (name, (TStr, text)) params -> called aliases name k -> getitem i0 k = Ok (PStr x, None) -> getitem i1 k = Ok (PStr x, None).
Proof using U DEFAULTS READ KEYS WRITTEN. intros I C G. rewrite (generated_value name TStr text k (PStr x) None x I C G); reflexivity. Qed.
(** A list of one number with a unit is written without brackets: it comes back as a text. *)
Theorem C79_generate_lists_refuted name text k q unit : In (name, (TList, text)) params -> called aliases name k ->
  getitem i0 k = Ok (PList [PNum q], Some unit) -> (exists p, numeral (num TList q) p) -> getitem i1 k = Ok (PStr (num TList q), Some unit).
Proof using U DEFAULTS READ KEYS WRITTEN.
  intros I C G (p & N). rewrite (generated_value name TList text k (PList [PNum q]) (Some unit) (num TList q) I C G); [|reflexivity].
  rewrite (numeral_not_list _ _ N). reflexivity.
Qed.
(** A parameter without a default is written as the text None, and comes back as that text. *)
Theorem C79_generate_none_refuted name t text k : In (name, (t, text)) params -> called aliases name k -> getitem i0 k = Ok (PNone, None) ->
  getitem i1 k = Ok (PStr (s "None"), None).
Proof using U DEFAULTS READ KEYS WRITTEN.
  intros I C G. rewrite (generated_value name t text k PNone None (s "None") I C G); [|reflexivity]. destruct t; vm_compute; reflexivity.
Qed.
End Values.
Print Assumptions C79_generate_numbers. Print Assumptions C79_generate_texts. Print Assumptions C79_generate_lists_refuted. Print Assumptions C79_generate_none_refuted.

(** ** The shipped parameters *)
Definition plain_default (t : ptype) (v : pvalue) (u : option str) : bool :=
  match t, v, u with TInt, PNum _, _ | TFloat, PNum _, _ | TStr, PStr _, None => true | _, _, _ => false end.
Definition unit_list_default (t : ptype) (v : pvalue) (u : option str) : bool :=
  match t, v, u with TList, PList [PNum _], Some _ => true | _, _, _ => false end.
Definition none_default (v : pvalue) (u : option str) : bool := match v, u with PNone, None => true | _, _ => false end.
Definition lists_with_units : list str := map s ["mass"; "charge"; "obsR"; "obsPhi"; "obsTheta"; "streamSpawnLocAzi"; "streamSpawnLocZen"]%string.
Definition shipped_class (libm : Qc -> Qc -> option Qc) (p : str * (ptype * str)) : bool :=
  match default_of libm (texts_of shipped_constants) (types_of shipped_constants) (reference_of shipped_parameters) 8 (fst p) with
  | Ok v => let u := unit_of shipped_units (fst p) in
            if mem str_eqb (fst p) lists_with_units then unit_list_default (fst (snd p)) v u
            else if str_eqb (fst p) (s "numNodesPerStream") then none_default v u else plain_default (fst (snd p)) v u
  | Raise _ => false
  end.
(** Every shipped default is a number or a text, except seven lists of one number with a unit
    and the number of nodes per stream, which has none. *)
Theorem C79_generate_shipped libm n p : (8 <= n)%nat -> In p (reference_of shipped_parameters) ->
  exists v, default_of libm (texts_of shipped_constants) (types_of shipped_constants) (reference_of shipped_parameters) n (fst p) = Ok v /\
    let u := unit_of shipped_units (fst p) in
    if mem str_eqb (fst p) lists_with_units then exists q unit, fst (snd p) = TList /\ v = PList [PNum q] /\ u = Some unit
    else if str_eqb (fst p) (s "numNodesPerStream") then v = PNone /\ u = None
    else (exists q, (fst (snd p) = TInt \/ fst (snd p) = TFloat) /\ v = PNum q) \/ (exists x, fst (snd p) = TStr /\ v = PStr x /\ u = None).
Proof.
  intros L I. assert (A : forallb (shipped_class libm) (reference_of shipped_parameters) = true) by (vm_compute; reflexivity).
  rewrite forallb_forall in A. specialize (A p I). unfold shipped_class in A.
  destruct (default_of _ _ _ _ 8 (fst p)) as [v|e] eqn:E; [|discriminate]. exists v. split; [exact (C34_fuel _ _ _ _ _ _ _ E n L)|].
  cbv zeta in *. generalize dependent (unit_of shipped_units (fst p)). intros u A. destruct (mem _ _ _).
  - unfold unit_list_default in A. destruct (fst (snd p)); try discriminate A. destruct v as [|x|l|]; try discriminate A.
    destruct l as [|[q| | |] [|? ?]]; try discriminate A. destruct u as [unit|]; [|discriminate A]. exists q, unit. auto.
  - destruct (str_eqb _ _).
    + unfold none_default in A. destruct v; try discriminate A. destruct u; [discriminate A|auto].
    + unfold plain_default in A. destruct (fst (snd p)); try discriminate A; destruct v as [q|x|l|]; try discriminate A; [left; exists q; auto|left; exists q; auto|].
      destruct u; [discriminate A|]. right. exists x. auto.
Qed.
Print Assumptions C79_generate_shipped.
(** A package with a number and a list: the hypotheses of the theorems above hold. *)
Definition g_params : list (str * (ptype * str)) := [(s "x", (TFloat, s "1.5")); (s "m", (TList, s "[2.0]"))].
Definition g_units : list (str * option str) := [(s "x", None); (s "m", Some (s "nucleon"))].
Definition g_num (t : ptype) (q : Qc) : str := if qc_eqb q (mkq 3 2) then s "1.5" else s "2.0".
Definition g_pairs : list (str * str) := [(s "m", s "2.0"); (s "x", s "1.5")].
Example C79_generated_example : exists i0 i1,
  usable g_params [] [] group_eqb /\
  interface (fun _ _ => None) [] [] g_params [] g_units (groups_init []) group_eqb 8 None = Ok i0 /\
  interface (fun _ _ => None) [] [] g_params [] g_units (groups_init []) group_eqb 8 (Some g_pairs) = Ok i1 /\ NoDup (map fst g_pairs) /\
  (forall name t text, In (name, (t, text)) g_params -> exists vu w, getitem i0 name = Ok vu /\ CliModel.written_value (g_num t) vu = Ok w /\ In (name, w) g_pairs) /\
  numeral (g_num TFloat (mkq 3 2)) (mkq 3 2) /\ getitem i0 (s "m") = Ok (PList [PNum (zq 2)], Some (s "nucleon")) /\ getitem i1 (s "m") = Ok (PStr (s "2.0"), Some (s "nucleon")).
Proof.
  eexists _, _. split.
  { split; [intros a b H; apply group_eqb_spec, H|]. split; [apply distinct_nodup; vm_compute; reflexivity|].
    split; [apply distinct_nodup; vm_compute; reflexivity|]. apply aliases_by_computation. vm_compute. reflexivity. }
  split; [vm_compute; reflexivity|]. split; [vm_compute; reflexivity|]. split; [apply distinct_nodup; vm_compute; reflexivity|]. split; [|split; [|split]].
  - intros name t text [H|[H|[]]]; injection H as <- <- <-.
    + eexists _, _. split; [vm_compute; reflexivity|]. split; [vm_compute; reflexivity|]. right. left. reflexivity.
    + eexists _, _. split; [vm_compute; reflexivity|]. split; [vm_compute; reflexivity|]. left. reflexivity.
  - apply float_numeral. vm_compute. reflexivity.
  - vm_compute. reflexivity.
  - vm_compute. reflexivity.
Qed.
