(** * C35, C64: the runtime interface *)
From Verif Require Import PyBase PyLemmas ContainerModel ContainerProofs ContainerProofs2 AliasedModel AliasedSpec AliasedProofs
  ConfigModel ConfigSpec ConfigProofs ParameterModel ParameterSpec ParameterNumbers ParameterProofs ParameterTables ParameterProperties.
From Coq Require Import Lia.
Local Open Scope Qc_scope.

(** ** specification *)
(** [k] is the name or an alias of a parameter. *)
Definition called (aliases : list (list str)) (name k : str) : Prop :=
  k = name \/ exists g, In g aliases /\ In name g /\ In k g.
(** No name in two groups, no two parameters in one group. *)
Definition aliases_ok (aliases : list (list str)) (names : list str) : Prop :=
  disjoint_groups aliases /\ forall g a b, In g aliases -> In a g -> In b g -> In a names -> In b names -> a = b.
(** What the configuration file, if there is one, sets. *)
Definition setting (cfg : option (list (str * str))) (name : str) : result str :=
  match cfg with Some c => lookup str_eqb c name | None => Raise KeyError end.

(** ** dictionaries *)
Lemma update_get {V} (u : list (str * V)) : forall d k, NoDup (map fst u) ->
  lookup str_eqb (update d u) k = match lookup str_eqb u k with Ok v => Ok v | Raise _ => lookup str_eqb d k end.
Proof.
  unfold update. induction u as [|[h w] u IH]; intros d k ND; [reflexivity|]. inversion ND as [|? ? N ND']; subst. cbn [fold_left fst snd].
  rewrite IH by exact ND'. rewrite (dict_put_get str_eqb str_decides). cbn [lookup]. destruct (str_eqb h k) eqn:E.
  - apply str_eqb_eq in E. subst h. rewrite (proj2 (lookup_missing str_eqb str_decides u k KeyError)) by (split; [reflexivity|exact N]). reflexivity.
  - reflexivity.
Qed.
Lemma update_keys {V} (u : list (str * V)) : forall d k, In k (map fst (update d u)) <-> In k (map fst d) \/ In k (map fst u).
Proof.
  unfold update. induction u as [|[h w] u IH]; intros d k; cbn [fold_left map fst snd In]; [tauto|].
  rewrite IH, (dict_put_keys str_eqb str_decides). intuition.
Qed.
Lemma update_nodup {V} (u : list (str * V)) : forall d, NoDup (map fst d) -> NoDup (map fst (update d u)).
Proof. unfold update. induction u as [|[h w] u IH]; intros d ND; [exact ND|]. cbn [fold_left]. apply IH, dict_put_nodup, ND. Qed.

Lemma settings_keys (params : list (str * (ptype * str))) c k : In k (map fst (user_settings params c)) <-> In k (map fst params) /\ In k (map fst c).
Proof.
  unfold user_settings. induction params as [|[n [t x]] ps IH]; cbn [flat_map map fst snd In]; [tauto|]. rewrite map_app, in_app_iff, IH.
  destruct (lookup str_eqb c n) as [v|e] eqn:E.
  - assert (I : In n (map fst c)).
    { destruct (in_dec_b str_eqb str_decides n (map fst c)) as [I|N]; [exact I|].
      rewrite (proj2 (lookup_missing str_eqb str_decides c n KeyError) (conj eq_refl N)) in E. discriminate. }
    cbn [map fst In]. split; [intros [[<-|[]]|H]; tauto|]. intros ([<-|H] & K); [left; left; reflexivity|tauto].
  - apply (lookup_missing str_eqb str_decides) in E as (_ & N). cbn [map In]. split; [intros [[]|H]; tauto|].
    intros ([<-|H] & K); [contradiction|tauto].
Qed.
Lemma settings_get (params : list (str * (ptype * str))) c name t x : NoDup (map fst params) -> In (name, (t, x)) params ->
  lookup str_eqb (user_settings params c) name = match lookup str_eqb c name with Ok v => Ok (convert v t) | Raise _ => Raise KeyError end.
Proof.
  intros nd_params I. destruct (lookup str_eqb c name) as [v|e] eqn:E.
  - unfold user_settings. induction params as [|[n [t' x']] ps IH]; [destruct I|]. cbn [flat_map fst snd].
    cbn [map fst] in nd_params. inversion nd_params as [|? ? N ND]; subst. destruct I as [I|I].
    + injection I as -> -> ->. rewrite E. cbn [app lookup]. rewrite str_eqb_refl. reflexivity.
    + assert (NE : n <> name) by (intros ->; apply N; exact (in_map fst _ _ I)).
      destruct (lookup str_eqb c n); cbn [app]; [cbn [lookup]; rewrite (proj2 (str_eqb_neq n name) NE)|]; apply IH; assumption.
  - apply (lookup_missing str_eqb str_decides). split; [reflexivity|]. rewrite settings_keys. apply (lookup_missing str_eqb str_decides) in E. tauto.
Qed.
Lemma settings_nodup (params : list (str * (ptype * str))) c : NoDup (map fst params) -> NoDup (map fst (user_settings params c)).
Proof.
  intros nd_params. induction params as [|[n [t x]] ps IH]; cbn [user_settings flat_map fst snd map]; [constructor|]. cbn [map fst] in nd_params. inversion nd_params as [|? ? N ND]; subst.
  destruct (lookup str_eqb c n); cbn [app map fst]; [|apply IH, ND]. constructor; [|apply IH, ND].
  intros H. assert (K : forall ps', In n (map fst (user_settings ps' c)) -> In n (map fst ps')).
  { clear. intros ps'. unfold user_settings. induction ps' as [|[n' [t x]] ps' IH]; cbn [flat_map map fst snd]; [intros []|]. rewrite map_app, in_app_iff.
    destruct (lookup str_eqb c n'); cbn [map fst In]; intros [H|H]; auto; try contradiction. destruct H as [<-|[]]. left. reflexivity. }
  exact (N (K ps H)).
Qed.
Lemma defaults_spec libm consts ctypes (params : list (str * (ptype * str))) fuel ds : NoDup (map fst params) -> all_defaults libm consts ctypes params fuel = Ok ds ->
  map fst ds = map fst params /\ forall name, In name (map fst params) -> exists v, default_of libm consts ctypes params fuel name = Ok v /\ lookup str_eqb ds name = Ok v.
Proof.
  intros nd_params. unfold all_defaults. set (f := default_of libm consts ctypes params fuel). clearbody f. clear -nd_params. revert ds.
  induction params as [|p ps IH]; intros ds E; [injection E as <-; split; [reflexivity|intros ? []]|].
  cbn [mapM] in E. apply bind_ok in E as (y & Ey & E). apply bind_ok in Ey as (v & Ev & Ey). injection Ey as <-. apply bind_ok in E as (ys & Es & E). injection E as <-.
  cbn [map fst] in *. inversion nd_params as [|? ? N ND]; subst. destruct (IH ND ys Es) as (K & H). cbn [fst]. split; [f_equal; exact K|].
  intros name [<-|I]; cbn [lookup].
  - exists v. split; [exact Ev|]. rewrite str_eqb_refl. reflexivity.
  - assert (NE : fst p <> name) by (intros <-; contradiction). rewrite (proj2 (str_eqb_neq _ _) NE). apply H, I.
Qed.
Section Runtime.
Variable libm : Qc -> Qc -> option Qc.
Variables (consts : list (str * str)) (ctypes : list (str * bool)) (params : list (str * (ptype * str))).
Variables (locals : list (str * pvalue)) (units : list (str * option str)) (aliases : list (list str)).
Variable same : group -> group -> bool.
Hypothesis same_sound : forall a b, same a b = true -> same_names a b.
Let names := map fst locals ++ map fst params.
Hypothesis ok_aliases : aliases_ok aliases names.
Hypothesis nd_locals : NoDup (map fst locals).
Hypothesis nd_params : NoDup (map fst params).

(** The table behind the interface. *)
Lemma base_spec fuel cfg b : interface_base libm consts ctypes params locals units fuel cfg = Ok b ->
  NoDup (map fst b) /\ (forall k, In k (map fst b) <-> In k names) /\
  (forall name t x, In (name, (t, x)) params -> exists v, default_of libm consts ctypes params fuel name = Ok v /\
     In (name, (match setting cfg name with Ok y => convert y t | Raise _ => v end, unit_of units name)) b) /\
  (forall name v, In (name, v) locals -> ~ In name (map fst params) -> In (name, (v, unit_of units name)) b).
Proof using nd_locals nd_params.
  unfold interface_base. intros E. apply bind_ok in E as (ds & Ed & E). injection E as <-. destruct (defaults_spec libm consts ctypes params fuel ds nd_params Ed) as (KD & D).
  set (init := update (update [] locals) ds). set (final := match cfg with Some c => update init (user_settings params c) | None => init end).
  assert (NDd : NoDup (map fst ds)) by (rewrite KD; exact nd_params).
  assert (NI : NoDup (map fst init)) by (apply update_nodup, update_nodup; constructor).
  assert (NF : NoDup (map fst final)) by (unfold final; destruct cfg; [apply update_nodup|]; exact NI).
  assert (KI : forall k, In k (map fst init) <-> In k names).
  { intros k. unfold init, names. rewrite !update_keys, KD, in_app_iff. cbn [map In]. tauto. }
  assert (KF : forall k, In k (map fst final) <-> In k names).
  { intros k. unfold final. destruct cfg as [c|]; [|apply KI]. rewrite update_keys, KI, settings_keys. unfold names. rewrite in_app_iff. tauto. }
  assert (MF : forall k v, lookup str_eqb final k = Ok v -> In (k, (v, unit_of units k)) (map (fun kv => (fst kv, (snd kv, unit_of units (fst kv)))) final)).
  { intros k v H. apply (lookup_in str_eqb str_decides _ _ _ NF) in H. apply in_map_iff. exists (k, v). split; [reflexivity|exact H]. }
  rewrite map_map. cbn [fst]. change (fun x : str * pvalue => fst x) with (@fst str pvalue). split; [exact NF|]. split; [exact KF|]. split.
  - intros name t x I. destruct (D name (in_map fst _ _ I)) as (v & Ev & L). exists v. split; [exact Ev|]. apply MF.
    assert (LI : lookup str_eqb init name = Ok v) by (unfold init; rewrite (update_get ds) by exact NDd; rewrite L; reflexivity).
    unfold final, setting. destruct cfg as [c|]; [|exact LI]. rewrite update_get by exact (settings_nodup params c nd_params). rewrite (settings_get params c name t x nd_params I).
    destruct (lookup str_eqb c name); [reflexivity|exact LI].
  - intros name v I NP. apply MF.
    assert (LI : lookup str_eqb init name = Ok v).
    { unfold init. rewrite (update_get ds) by exact NDd.
      rewrite (proj2 (lookup_missing str_eqb str_decides ds name KeyError)) by (split; [reflexivity|rewrite KD; exact NP]).
      rewrite update_get by exact nd_locals. rewrite (proj2 (lookup_in str_eqb str_decides locals name v nd_locals) I). reflexivity. }
    unfold final. destruct cfg as [c|]; [|exact LI]. rewrite update_get by exact (settings_nodup params c nd_params).
    rewrite (proj2 (lookup_missing str_eqb str_decides (user_settings params c) name KeyError)); [exact LI|]. split; [reflexivity|]. rewrite settings_keys. tauto.
Qed.

(** ** aliases *)
Lemma alias_group_spec name k : In k (alias_group (groups_init aliases) name) <-> called aliases name k.
Proof using ok_aliases.
  unfold alias_group, called. rewrite dedup_in. cbn [In]. destruct ok_aliases as (DJ & _).
  assert (GE : forall x g, In x (dedup g) -> In x g) by (intros x g; apply dedup_in).
  assert (G : match groups_get (groups_init aliases) name with
              | Some g => exists h, In h aliases /\ In name h /\ gnames g = dedup h
              | None => forall h, In h aliases -> ~ In name h
              end).
  { clear DJ ok_aliases. induction aliases as [|h gs IH]; cbn [groups_init map groups_get gnames]; [intros h []|].
    change (map (fun k => {| gnames := dedup k; graw := false |}) gs) with (groups_init gs).
    destruct (in_group name (dedup h) || group_eqb [name] (dedup h)) eqn:E.
    - exists h. split; [left; reflexivity|]. split; [|reflexivity]. apply orb_true_iff in E as [E|E].
      + apply dedup_in, in_group_spec, E.
      + apply group_eqb_spec in E. apply dedup_in, E. left. reflexivity.
    - apply orb_false_iff in E as (E & _). apply in_group_false in E. rewrite dedup_in in E.
      destruct (groups_get (groups_init gs) name) as [g|].
      + destruct IH as (h' & I & H). exists h'. split; [right; exact I|exact H].
      + intros h' [<-|I]; [exact E|exact (IH h' I)]. }
  destruct (groups_get (groups_init aliases) name) as [g|].
  - destruct G as (h & Ih & Nh & Eg). rewrite Eg, dedup_in. split.
    + intros [<-|H]; [left; reflexivity|right; exists h; tauto].
    + intros [->|(g' & Ig & Ng & Kg)]; [left; reflexivity|right]. assert (h = g'); [|congruence].
      clear -DJ Ih Nh Ig Ng. unfold disjoint_groups in DJ. induction aliases as [|x gs IH]; [destruct Ih|]. cbn [concat] in DJ.
      assert (DS : forall y, In y x -> In y (concat gs) -> False).
      { clear -DJ. induction x as [|z x IH]; intros y; [intros []|]. cbn [app] in DJ. inversion DJ as [|? ? N ND]; subst. intros [<-|H] C; [apply N, in_or_app; right; exact C|exact (IH ND y H C)]. }
      assert (ND : NoDup (concat gs)).
      { clear -DJ. induction x as [|z x IH]; [exact DJ|]. inversion DJ. apply IH. assumption. }
      destruct Ih as [->|Ih], Ig as [->|Ig]; [reflexivity| | |exact (IH ND Ih Ig)].
      * exfalso. apply (DS name Nh). apply in_concat. exists g'. tauto.
      * exfalso. apply (DS name Ng). apply in_concat. exists h. tauto.
  - cbn [In]. split; [intros [<-|[]]; left; reflexivity|]. intros [->|(g' & Ig & Ng & _)]; [left; reflexivity|exfalso; exact (G g' Ig Ng)].
Qed.
Lemma called_once a b k : In a names -> In b names -> called aliases a k -> called aliases b k -> a = b.
Proof using ok_aliases.
  destruct ok_aliases as (DJ & O). intros Ia Ib [->|(g & Ig & Ng & Kg)] [E|(g' & Ig' & Ng' & Kg')].
  - exact E.
  - exact (O g' a b Ig' Kg' Ng' Ia Ib).
  - subst k. exact (O g a b Ig Ng Kg Ia Ib).
  - apply (O g a b Ig Ng); try assumption. assert (g = g'); [|congruence].
    clear -DJ Ig Kg Ig' Kg'. unfold disjoint_groups in DJ. induction aliases as [|x gs IH]; [destruct Ig|]. cbn [concat] in DJ.
    assert (DS : forall y, In y x -> In y (concat gs) -> False).
    { clear -DJ. induction x as [|z x IH]; intros y; [intros []|]. cbn [app] in DJ. inversion DJ as [|? ? N ND]; subst. intros [<-|H] C; [apply N, in_or_app; right; exact C|exact (IH ND y H C)]. }
    assert (ND : NoDup (concat gs)).
    { clear -DJ. induction x as [|z x IH]; [exact DJ|]. inversion DJ. apply IH. assumption. }
    destruct Ig as [->|Ig], Ig' as [->|Ig']; [reflexivity| | |exact (IH ND Ig Ig')].
    + exfalso. apply (DS k Kg). apply in_concat. exists g'. tauto.
    + exfalso. apply (DS k Kg'). apply in_concat. exists g. tauto.
Qed.
Lemma interface_entries {V} (b : list (str * V)) : NoDup (map fst b) -> (forall k, In k (map fst b) -> In k names) ->
  let al := alias_group (groups_init aliases) in
  fold_left (fun d kv => dict_set same d (al (fst kv)) (snd kv)) b [] = map (fun kv => (al (fst kv), snd kv)) b /\
  NoDup (flat_keys (map (fun kv => (al (fst kv), snd kv)) b)).
Proof using ok_aliases same_sound.
  intros ND IN al.
  assert (NDk : forall l : list str, NoDup l -> (forall k, In k l -> In k names) -> NoDup (concat (map al l))).
  { induction l as [|x l IH]; intros N I; [constructor|]. inversion N as [|? ? Nx N']; subst. cbn [map concat].
    assert (NDa : NoDup (al x)) by apply dedup_nodup. specialize (IH N' (fun k H => I k (or_intror H))).
    assert (DS : forall y, In y (al x) -> ~ In y (concat (map al l))).
    { intros y Hy H. apply in_concat in H as (g & Hg & Yg). apply in_map_iff in Hg as (z & <- & Hz). apply Nx.
      rewrite (called_once x z y); [exact Hz| | | |]; [apply I; left; reflexivity|apply I; right; exact Hz|apply alias_group_spec, Hy|apply alias_group_spec, Yg]. }
    revert NDa DS. generalize (al x). intros g0. induction g0 as [|y g IHg]; intros NDa DS; [exact IH|]. inversion NDa; subst. cbn [app]. constructor.
    - intros H. apply in_app_or in H as [H|H]; [contradiction|]. exact (DS y (or_introl eq_refl) H).
    - apply IHg; [assumption|]. intros z Hz. apply DS. right. exact Hz. }
  assert (FK : forall b : list (str * V), flat_keys (map (fun kv => (al (fst kv), snd kv)) b) = concat (map al (map fst b))).
  { intros b'. unfold flat_keys. rewrite !map_map. reflexivity. }
  split; [|rewrite FK; apply NDk; assumption].
  assert (G : forall pre, NoDup (map fst (pre ++ b)) -> (forall k, In k (map fst (pre ++ b)) -> In k names) ->
    fold_left (fun d kv => dict_set same d (al (fst kv)) (snd kv)) b (map (fun kv => (al (fst kv), snd kv)) pre) = map (fun kv => (al (fst kv), snd kv)) (pre ++ b)).
  { clear ND IN. induction b as [|[k v] b' IH]; intros pre ND IN; [rewrite app_nil_r; reflexivity|]. cbn [fold_left fst snd].
    rewrite (dict_set_new same same_sound).
    - specialize (IH (pre ++ [(k, v)])). rewrite <- app_assoc in IH. cbn [app] in IH. etransitivity; [|exact (IH ND IN)]. f_equal. rewrite map_app. reflexivity.
    - intros x Hx H. rewrite FK in H. apply in_concat in H as (g & Hg & Xg). apply in_map_iff in Hg as (z & <- & Hz).
      rewrite map_app in ND. cbn [map fst] in ND. apply NoDup_remove_2 in ND. apply ND. apply in_or_app. left.
      rewrite (called_once k z x); [exact Hz| | | |]; [| |apply alias_group_spec, Hx|apply alias_group_spec, Xg]; apply IN; rewrite map_app; apply in_or_app; [right; left; reflexivity|left; exact Hz].
    - unfold al, alias_group. intros H. assert (I : In k []) by (rewrite <- H; apply dedup_in; left; reflexivity). destruct I. }
  exact (G [] ND IN).
Qed.

Let the_interface := interface libm consts ctypes params locals units (groups_init aliases) same.
Let default := default_of libm consts ctypes params.
Lemma interface_spec fuel cfg i : the_interface fuel cfg = Ok i -> exists b,
  interface_base libm consts ctypes params locals units fuel cfg = Ok b /\ i = map (fun kv => (alias_group (groups_init aliases) (fst kv), snd kv)) b /\
  NoDup (flat_keys i).
Proof using ok_aliases same_sound nd_locals nd_params.
  unfold the_interface, interface. intros E. apply bind_ok in E as (b & Eb & E). injection E as E. exists b. split; [exact Eb|].
  destruct (base_spec fuel cfg b Eb) as (ND & K & _).
  destruct (interface_entries b ND (fun k H => proj1 (K k) H)) as (X & Y). rewrite <- E. split; [exact X|]. rewrite X. exact Y.
Qed.
Lemma interface_value fuel cfg i : the_interface fuel cfg = Ok i ->
  forall name t x k, In (name, (t, x)) params -> called aliases name k ->
  exists v, default fuel name = Ok v /\
    getitem i k = Ok (match setting cfg name with Ok y => convert y t | Raise _ => v end, unit_of units name).
Proof using ok_aliases same_sound nd_locals nd_params.
  intros E name t x k I C. destruct (interface_spec fuel cfg i E) as (b & Eb & -> & DJ). destruct (base_spec fuel cfg b Eb) as (_ & _ & P & _).
  destruct (P name t x I) as (v & Ev & Iv). exists v. split; [exact Ev|].
  eapply (getitem_disjoint _ DJ (alias_group (groups_init aliases) name)); [|apply alias_group_spec, C].
  apply in_map_iff. eexists. split; [|exact Iv]. reflexivity.
Qed.
Lemma interface_local fuel cfg i : the_interface fuel cfg = Ok i ->
  forall name v k, In (name, v) locals -> ~ In name (map fst params) -> called aliases name k -> getitem i k = Ok (v, unit_of units name).
Proof using ok_aliases same_sound nd_locals nd_params.
  intros E name v k I N C. destruct (interface_spec fuel cfg i E) as (b & Eb & -> & DJ). destruct (base_spec fuel cfg b Eb) as (_ & _ & _ & L).
  eapply (getitem_disjoint _ DJ (alias_group (groups_init aliases) name)); [|apply alias_group_spec, C].
  apply in_map_iff. eexists. split; [|exact (L name v I N)]. reflexivity.
Qed.
Lemma interface_unknown fuel cfg i : the_interface fuel cfg = Ok i ->
  forall k, (getitem i k = Raise KeyError <-> forall name, In name names -> ~ called aliases name k).
Proof using ok_aliases same_sound nd_locals nd_params.
  intros E k. destruct (interface_spec fuel cfg i E) as (b & Eb & -> & DJ). destruct (base_spec fuel cfg b Eb) as (_ & K & _).
  rewrite getitem_error. unfold flat_keys. rewrite map_map. cbn [fst]. split.
  - intros (_ & N) name In C. apply N. apply in_concat. exists (alias_group (groups_init aliases) name). split; [|apply alias_group_spec, C].
    apply K in In. apply in_map_iff in In as (kv & <- & J). apply in_map_iff. exists kv. split; [reflexivity|exact J].
  - intros H. split; [reflexivity|]. intros C. apply in_concat in C as (g & Ig & Kg). apply in_map_iff in Ig as (kv & <- & J).
    apply (H (fst kv)); [apply K, in_map, J|apply alias_group_spec, Kg].
Qed.
End Runtime.
Unset Default Proof Using.

(** ** C35 *)
(** The tables: no name twice, aliases not ambiguous; [same] compares groups. *)
Definition usable (params : list (str * (ptype * str))) (locals : list (str * pvalue)) (aliases : list (list str)) (same : group -> group -> bool) : Prop :=
  (forall a b, same a b = true -> same_names a b) /\ NoDup (map fst locals) /\ NoDup (map fst params) /\
  aliases_ok aliases (map fst locals ++ map fst params).
(** If the defaults can be evaluated, there is an interface. *)
Theorem C35_exists libm consts ctypes params locals units aliases same fuel cfg :
  (forall p, In p params -> is_ok (default_of libm consts ctypes params fuel (fst p)) = true) ->
  exists i, interface libm consts ctypes params locals units aliases same fuel cfg = Ok i.
Proof.
  intros H. unfold interface, interface_base. assert (D : exists ds, all_defaults libm consts ctypes params fuel = Ok ds); [|destruct D as (ds & ->); eexists; reflexivity].
  unfold all_defaults. revert H. set (f := default_of libm consts ctypes params fuel). clearbody f. induction params as [|p ps IH]; intros H; [eexists; reflexivity|].
  cbn [mapM]. pose proof (H p (or_introl eq_refl)) as Hp. destruct (f (fst p)) as [v|]; [|discriminate]. cbn [bind].
  destruct IH as (ds & ->); [intros q I; apply H; right; exact I|]. eexists. reflexivity.
Qed.
Print Assumptions C35_exists.
(** A parameter has the value that the user set, converted to its type, or else
    its default, under its name and under every alias. *)
Theorem C35_value libm consts ctypes params locals units aliases same fuel cfg i : usable params locals aliases same ->
  interface libm consts ctypes params locals units (groups_init aliases) same fuel cfg = Ok i ->
  forall name t text k, In (name, (t, text)) params -> called aliases name k ->
  match setting cfg name with
  | Ok y => getitem i k = Ok (convert y t, unit_of units name)
  | Raise _ => exists v, default_of libm consts ctypes params fuel name = Ok v /\ getitem i k = Ok (v, unit_of units name)
  end.
Proof.
  intros (S & N1 & N2 & A) E name t text k I C.
  destruct (interface_value libm consts ctypes params locals units aliases same S A N1 N2 fuel cfg i E name t text k I C) as (v & D & G).
  destruct (setting cfg name); [exact G|]. exists v. split; assumption.
Qed.
Print Assumptions C35_value.
(** What a converted setting is. *)
Theorem C35_conversion y q :
  (convert y TFloat = PNum q <-> numeral y q) /\ (convert y TInt = PNum q <-> integer_numeral y q) /\ convert y TStr = PStr y /\
  ((forall p, ~ numeral y p) -> convert y TFloat = PStr y) /\ ((forall p, ~ integer_numeral y p) -> convert y TInt = PStr y).
Proof.
  unfold convert. split; [|split; [|split; [reflexivity|split]]].
  - rewrite <- float_numeral. destruct (float_of_str y); split; intros H; try discriminate; congruence.
  - rewrite <- int_numeral. destruct (int_of_str y); split; intros H; try discriminate; congruence.
  - intros H. destruct (float_of_str y) as [p|] eqn:E; [|reflexivity]. apply float_numeral in E. exfalso. exact (H p E).
  - intros H. destruct (int_of_str y) as [p|] eqn:E; [|reflexivity]. apply int_numeral in E. exfalso. exact (H p E).
Qed.
Print Assumptions C35_conversion.
Theorem C35_list_conversion l qs : Forall2 numeral l qs -> convert (list_text l) TList = PList (map PNum qs).
Proof. intros F. unfold convert. rewrite (numerals_read l qs F). reflexivity. Qed.
Print Assumptions C35_list_conversion.
(** Other names raise. *)
Theorem C35_unknown libm consts ctypes params locals units aliases same fuel cfg i : usable params locals aliases same ->
  interface libm consts ctypes params locals units (groups_init aliases) same fuel cfg = Ok i ->
  forall k, getitem i k = Raise KeyError <-> forall name, In name (map fst locals ++ map fst params) -> ~ called aliases name k.
Proof. intros (S & N1 & N2 & A) E. exact (interface_unknown libm consts ctypes params locals units aliases same S A N1 N2 fuel cfg i E). Qed.
Print Assumptions C35_unknown.
(** Only settings of known parameters matter. *)
Theorem C35_known_only libm consts ctypes params locals units aliases same fuel c c' :
  (forall name, In name (map fst params) -> lookup str_eqb c name = lookup str_eqb c' name) ->
  interface libm consts ctypes params locals units aliases same fuel (Some c) = interface libm consts ctypes params locals units aliases same fuel (Some c').
Proof.
  intros H. unfold interface, interface_base. assert (U : user_settings params c = user_settings params c'); [|rewrite U; reflexivity].
  unfold user_settings. induction params as [|p ps IH]; [reflexivity|]. cbn [flat_map]. rewrite (H (fst p) (or_introl eq_refl)). f_equal. apply IH.
  intros name I. apply H. right. exact I.
Qed.
Print Assumptions C35_known_only.
(** What [interface[k]] returns: the value, with the unit of the parameter;
    angles are in degrees if the parameter "useDegrees" is set. *)
Theorem C35_units i k v u : getitem i k = Ok (v, u) -> forall d du, getitem i (s "useDegrees") = Ok (d, du) ->
  interface_get i k = Ok (v, match u with
                             | Some unit => Some (if str_eqb unit (s "rad") && truthy d then s "deg" else unit)
                             | None => None
                             end).
Proof. intros E d du F. unfold interface_get. rewrite E, F. cbn [bind fst snd]. destruct u as [u|]; [|reflexivity]. destruct (_ && _); reflexivity. Qed.
Print Assumptions C35_units.

(** The shipped tables are usable. *)
Definition aliases_b (aliases : list (list str)) (names : list str) : bool :=
  distinct (concat aliases) && forallb (fun g => Nat.leb (length (filter (fun k => mem str_eqb k names) g)) 1) aliases.
Lemma aliases_by_computation aliases names : aliases_b aliases names = true -> aliases_ok aliases names.
Proof.
  unfold aliases_b. intros H. apply andb_true_iff in H as (H1 & H2). split; [apply distinct_nodup, H1|]. rewrite forallb_forall in H2.
  intros g a b Ig Ia Ib Na Nb. specialize (H2 g Ig). apply Nat.leb_le in H2.
  assert (Fa : In a (filter (fun k => mem str_eqb k names) g)) by (apply filter_In; split; [exact Ia|apply (mem_spec str_eqb str_decides), Na]).
  assert (Fb : In b (filter (fun k => mem str_eqb k names) g)) by (apply filter_In; split; [exact Ib|apply (mem_spec str_eqb str_decides), Nb]).
  destruct (filter _ g) as [|x [|y l]]; [destruct Fa| |cbn in H2; lia]. destruct Fa as [<-|[]], Fb as [<-|[]]. reflexivity.
Qed.
Theorem C35_shipped_usable : usable (reference_of shipped_parameters) shipped_locals shipped_aliases group_eqb.
Proof.
  split; [intros a b H; apply group_eqb_spec, H|]. split; [apply distinct_nodup; vm_compute; reflexivity|].
  split; [apply distinct_nodup; vm_compute; reflexivity|]. apply aliases_by_computation. vm_compute. reflexivity.
Qed.
Definition shipped_interface libm fuel cfg := interface libm (texts_of shipped_constants) (types_of shipped_constants) (reference_of shipped_parameters)
  shipped_locals shipped_units (groups_init shipped_aliases) group_eqb fuel cfg.
Theorem C35_shipped_interface libm fuel cfg : (8 <= fuel)%nat -> exists i, shipped_interface libm fuel cfg = Ok i.
Proof.
  intros L. apply C35_exists. intros p I. unfold reference_of in I. apply in_map_iff in I as (p' & <- & I). cbn [fst].
  destruct (proj1 (C34_shipped libm fuel L) p' I) as (v & ->). reflexivity.
Qed.
(** A concrete run: a setting, found under an alias; a default; an angle. *)
Example C35_example :
  let cfg := Some [(s "kperxkpar", s "0.5"); (s "useDegrees", s "1"); (s "nonsense", s "3")] in
  match shipped_interface (fun _ _ => None) 8 cfg with
  | Ok i => interface_get i (s "kper / kpar") = Ok (PNum (mkq 1 2), Some (s "1")) /\
            interface_get i (s "idealShockPhi") = Ok (PNum 0, Some (s "deg")) /\
            interface_get i (s "nonsense") = Raise KeyError
  | Raise _ => False
  end.
Proof.
  vm_compute. split; [reflexivity|]. split; reflexivity.
Qed.

(** Where the interface does not do what the user asked for. *)
(** The minimum energy, a parameter of the package itself, cannot be set. *)
Theorem C35_local_refuted libm fuel cfg i : shipped_interface libm fuel cfg = Ok i ->
  forall k, In k [s "minimum_energy"; s "Emin"; s "minimum energy"] -> getitem i k = Ok (PNum 0, Some (s "MeV")).
Proof.
  intros E k K. destruct C35_shipped_usable as (S & N1 & N2 & A).
  assert (U : unit_of shipped_units (s "minimum_energy") = Some (s "MeV")) by (vm_compute; reflexivity). rewrite <- U.
  apply (interface_local libm _ _ _ _ _ _ _ S A N1 N2 fuel cfg i E (s "minimum_energy")).
  - left. reflexivity.
  - apply (mem_false str_eqb str_decides). vm_compute. reflexivity.
  - right. exists [s "minimum_energy"; s "Emin"; s "minimum energy"]. split; [left; reflexivity|]. split; [left; reflexivity|exact K].
Qed.
Print Assumptions C35_local_refuted.
(** Settings under an alias of a parameter are ignored. *)
Theorem C35_alias_setting_refuted libm fuel c : (forall name, In name (map fst shipped_parameters) -> ~ In name (map fst c)) ->
  shipped_interface libm fuel (Some c) = shipped_interface libm fuel (Some []).
Proof.
  intros H. apply C35_known_only. intros name I. unfold reference_of in I. rewrite map_map in I. cbn [lookup].
  apply (lookup_missing str_eqb str_decides). split; [reflexivity|exact (H name I)].
Qed.
Print Assumptions C35_alias_setting_refuted.
Example C35_alias_setting_example : forall name, In name (map fst shipped_parameters) -> ~ In name (map fst [(s "lambda0", s "2.0"); (s "Emin", s "1.0")]).
Proof.
  assert (H : forallb (fun name => negb (mem str_eqb name [s "lambda0"; s "Emin"])) (map fst shipped_parameters) = true) by (vm_compute; reflexivity).
  intros name I. rewrite forallb_forall in H. apply H in I. apply (mem_false str_eqb str_decides). cbn [map fst]. destruct (mem str_eqb name _); [discriminate|reflexivity].
Qed.

(** ** C64 *)
(** A default that is defined in terms of other parameters does not follow the
    values that the user sets for them. *)
Theorem C64_defaults_follow_settings_refuted libm fuel i : (8 <= fuel)%nat ->
  shipped_interface libm fuel (Some [(s "simStartTime", s "5.0")]) = Ok i ->
  In (s "epCalcStartTime", (KFloat, s "config.simStartTime")) shipped_parameters /\ In (s "simStopTime", (KFloat, s "config.simStartTime + config.tDel")) shipped_parameters /\ getitem i (s "simStartTime") = Ok (PNum (zq 5), Some (s "day")) /\ getitem i (s "epCalcStartTime") = Ok (PNum 0, Some (s "day")) /\ getitem i (s "simStopTime") = Ok (PNum (mkq 1041666666667 100000000000000), Some (s "day")).
Proof.
  intros L E. 
  assert (IP : forall n k t, lookup str_eqb shipped_parameters n = Ok (k, t) -> In (n, (k, t)) shipped_parameters).
  { intros n k t H. apply (lookup_in str_eqb str_decides) in H; [exact H|]. apply distinct_nodup. vm_compute. reflexivity. }
  assert (I1 : In (s "epCalcStartTime", (KFloat, s "config.simStartTime")) shipped_parameters) by (apply IP; vm_compute; reflexivity).
  assert (I2 : In (s "simStopTime", (KFloat, s "config.simStartTime + config.tDel")) shipped_parameters) by (apply IP; vm_compute; reflexivity).
  assert (I3 : In (s "simStartTime", (KFloat, s "0.0")) shipped_parameters) by (apply IP; vm_compute; reflexivity).
  assert (IR : forall n k t, In (n, (k, t)) shipped_parameters -> In (n, (ktype k, t)) (reference_of shipped_parameters)).
  { intros n k t H. unfold reference_of. apply in_map_iff. exists (n, (k, t)). split; [reflexivity|exact H]. }
  destruct (C34_shipped libm fuel L) as (_ & D1 & _ & _ & _ & _ & _ & D2 & _).
  assert (U1 : unit_of shipped_units (s "simStartTime") = Some (s "day")) by (vm_compute; reflexivity).
  assert (U2 : unit_of shipped_units (s "epCalcStartTime") = Some (s "day")) by (vm_compute; reflexivity).
  assert (U3 : unit_of shipped_units (s "simStopTime") = Some (s "day")) by (vm_compute; reflexivity).
  assert (VAL : forall n k t, In (n, (k, t)) shipped_parameters ->
    match setting (Some [(s "simStartTime", s "5.0")]) n with
    | Ok y => getitem i n = Ok (convert y (ktype k), unit_of shipped_units n)
    | Raise _ => exists v, default_of libm (texts_of shipped_constants) (types_of shipped_constants) (reference_of shipped_parameters) fuel n = Ok v /\
                           getitem i n = Ok (v, unit_of shipped_units n)
    end).
  { intros n k t H. exact (C35_value _ _ _ _ _ _ _ _ _ _ _ C35_shipped_usable E n (ktype k) t n (IR n k t H) (or_introl eq_refl)). }
  split; [exact I1|]. split; [exact I2|]. split; [|split].
  - pose proof (VAL _ _ _ I3) as H. cbn [setting] in H. replace (lookup _ _ _) with (@Ok str (s "5.0")) in H by reflexivity. rewrite U1 in H. rewrite H.
    replace (convert (s "5.0") (ktype KFloat)) with (PNum (zq 5)); [reflexivity|]. vm_compute. reflexivity.
  - pose proof (VAL _ _ _ I1) as H. cbn [setting] in H. replace (lookup _ _ _) with (@Raise str KeyError) in H by reflexivity. destruct H as (v & D & G).
    unfold shipped_default in D2. rewrite D2 in D. injection D as <-. rewrite G, U2. reflexivity.
  - pose proof (VAL _ _ _ I2) as H. cbn [setting] in H. replace (lookup _ _ _) with (@Raise str KeyError) in H by reflexivity. destruct H as (v & D & G).
    unfold shipped_default in D1. rewrite D1 in D. assert (v = PNum (mkq 1041666666667 100000000000000)) as -> by congruence. rewrite G, U3. reflexivity.
Qed.
Print Assumptions C64_defaults_follow_settings_refuted.
