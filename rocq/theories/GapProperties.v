(** * Smaller properties that earlier theorems left open (C44, C70, C76, C77) *)
From Verif Require Import PyBase PyLemmas ContainerModel ContainerProofs ContainerProofs2 Nd SymbolicModel MetricModel MetricTables UnitModel SystemsModel
  ParameterModel ParameterRuntime SourceModel SourceSpec SourceProperties EtcModel DatafileModel DatafileSpec DatafileProperties ObservableModel.

(** ** C77: all the information about a parameter *)
(** The attributes of the definition, overridden by those of the metadata, with
    the name of the type in the place of the type. *)
Definition written_type (t : ptype) : str := match t with TInt => s "int" | TFloat => s "float" | TStr => s "str" | TList => s "list" end.
Definition overriding {V} (a b : list (str * V)) (name : str) (v : V) : Prop := In (name, v) b \/ In (name, v) a /\ ~ In name (map fst b).
Theorem C77_full meta defs key a extra t : NoDup (map fst defs) -> In (key, a) defs -> NoDup (map fst a) ->
  (NoDup (map fst meta) /\ In (key, extra) meta \/ ~ In key (map fst meta) /\ extra = []) -> NoDup (map fst extra) ->
  In (s "type", AType t) a -> ~ In (s "type") (map fst extra) ->
  exists full, get_full meta defs key = Ok full /\ NoDup (map fst full) /\ In (s "type", AText (written_type t)) full /\
    forall name v, name <> s "type" -> (In (name, v) full <-> overriding a extra name v).
Proof.
  intros Nd Id Na Hm Ne It Nt. unfold get_full. rewrite (proj2 (lookup_in str_eqb str_decides defs _ _ Nd) Id).
  replace (match lookup str_eqb meta key with Ok m => m | Raise _ => [] end) with extra.
  2:{ destruct Hm as [(Nm & Im)|(Nm & ->)]; [rewrite (proj2 (lookup_in str_eqb str_decides meta _ _ Nm) Im); reflexivity|].
      rewrite (proj2 (lookup_missing str_eqb str_decides meta key KeyError)) by auto. reflexivity. }
  cbn zeta. change (fold_left _ extra a) with (update a extra). pose proof (update_nodup extra a Na) as Nu.
  assert (U : forall k v, In (k, v) (update a extra) <-> overriding a extra k v).
  { intros k v. unfold overriding. rewrite <- (lookup_in str_eqb str_decides _ k v Nu), <- (lookup_in str_eqb str_decides extra k v Ne), <- (lookup_in str_eqb str_decides a k v Na).
    rewrite (update_get extra a k Ne). destruct (lookup str_eqb extra k) as [w|e] eqn:L.
    - apply (lookup_in str_eqb str_decides _ _ _ Ne) in L. apply (in_map fst) in L. cbn in L. tauto.
    - apply (lookup_missing str_eqb str_decides) in L as (_ & L). split; [auto|]. intros [X|(X & _)]; [discriminate|exact X]. }
  set (g := fun kv : str * attr => if str_eqb (fst kv) (s "type") then match snd kv with AType _ => Ok (fst kv, type_name (snd kv)) | AText _ => Raise AttributeError end else Ok kv).
  assert (T : In (s "type", AType t) (update a extra)) by (apply U; right; auto).
  assert (M : exists full, mapM g (update a extra) = Ok full /\ map fst full = map fst (update a extra) /\
     (In (s "type", AText (written_type t)) full) /\ forall name v, name <> s "type" -> (In (name, v) full <-> In (name, v) (update a extra))).
  { assert (O : forall k v, In (k, v) (update a extra) -> k = s "type" -> v = AType t).
    { intros k v I ->. apply (lookup_in str_eqb str_decides _ _ _ Nu) in I. apply (lookup_in str_eqb str_decides _ _ _ Nu) in T. congruence. }
    clear U Nu. induction (update a extra) as [|(k, v) l IH]; [destruct T|]. cbn [mapM]. unfold g at 1. cbn [fst snd]. destruct (str_eqb_spec k (s "type")) as [->|N].
    - rewrite (O _ _ (or_introl eq_refl) eq_refl). cbn [bind].
      assert (K : exists r, mapM g l = Ok r /\ map fst r = map fst l /\ forall name v, name <> s "type" -> (In (name, v) r <-> In (name, v) l)).
      { clear IH T. assert (O' : forall k v, In (k, v) l -> k = s "type" -> v = AType t) by (intros; apply (O k v0); [right; assumption|assumption]). clear O.
        induction l as [|(k, w) l IH]; [exists []; cbn; tauto|]. destruct IH as (r & R & K & I); [intros; apply (O' k0); [right; assumption|assumption]|].
        cbn [mapM]. unfold g at 1. cbn [fst snd]. destruct (str_eqb_spec k (s "type")) as [->|N].
        - rewrite (O' _ _ (or_introl eq_refl) eq_refl). cbn [bind]. rewrite R. cbn [bind]. eexists. split; [reflexivity|]. split; [cbn [map fst]; f_equal; exact K|]. intros name x Hn. cbn [In]. rewrite I by exact Hn.
          split; (intros [X|X]; [exfalso; apply (f_equal fst) in X; cbn [fst] in X; congruence|tauto]).
        - cbn [bind]. rewrite R. cbn [bind]. eexists. split; [reflexivity|]. split; [cbn [map fst]; f_equal; exact K|]. intros name x Hn. cbn [In]. rewrite I by exact Hn. tauto. }
      destruct K as (r & R & K & I). rewrite R. cbn [bind]. eexists. split; [reflexivity|]. split; [cbn [map fst]; f_equal; exact K|]. split; [left; destruct t; reflexivity|].
      intros name x Hn. cbn [In]. rewrite I by exact Hn. split; (intros [X|X]; [exfalso; apply (f_equal fst) in X; cbn [fst] in X; congruence|tauto]).
    - destruct IH as (r & R & K & It' & I); [destruct T as [X|X]; [exfalso; apply (f_equal fst) in X; cbn [fst] in X; congruence|exact X]|intros; apply (O k0); [right; assumption|assumption]|].
      cbn [bind]. rewrite R. cbn [bind]. eexists. split; [reflexivity|]. split; [cbn [map fst]; f_equal; exact K|]. split; [right; exact It'|]. intros name x Hn. cbn [In]. rewrite I by exact Hn. tauto. }
  destruct M as (full & E & K & It' & I). exists full. split; [exact E|]. split; [rewrite K; exact Nu|]. split; [exact It'|]. intros name v Hn. rewrite (I name v Hn). apply U.
Qed.
Print Assumptions C77_full.
Example C77_full_case : get_full [(s "numRows", [(s "unit", AText (s "1")); (s "defaultVal", AText (s "9"))])]
    [(s "numRows", [(s "type", AType TInt); (s "defaultVal", AText (s "3")); (s "minVal", AText (s "1"))])] (s "numRows") =
  Ok [(s "type", AText (s "int")); (s "defaultVal", AText (s "9")); (s "minVal", AText (s "1")); (s "unit", AText (s "1"))].
Proof. reflexivity. Qed.

(** ** C76: shells, and a unit that is written as an empty text *)
(** The shells of a data file are the values of the variable "shell", and asking
    for them raises a KeyError when the file does not have that variable. *)
Theorem C76_shells f v : sound_file f ->
  (variable_of f (s "shell") v -> arr_shell f = Ok (v_data v)) /\ (~ In (s "shell") (map fst (f_variables f)) -> arr_shell f = Raise KeyError).
Proof.
  intros S. destruct (C76_arrays_view f S) as (l & V & K & I). unfold arr_shell. rewrite V. cbn [bind].
  assert (Nl : NoDup (map fst l)) by (rewrite K; apply NoDup_filter, array_names_nodup).
  assert (In (s "shell") array_names) as A by (apply (mem_spec str_eqb str_decides); vm_compute; reflexivity).
  split.
  - intros H. rewrite (proj2 (lookup_in str_eqb str_decides l (s "shell") (mkfarray (v_data v) (unit_attribute v) (v_dims v)) Nl)); [reflexivity|].
    apply I. split; [exact A|]. exists v. cbn. split; [exact H|]. repeat split; apply stated; reflexivity.
  - intros N. rewrite (proj2 (lookup_missing str_eqb str_decides l (s "shell") KeyError)); [reflexivity|]. split; [reflexivity|]. intros J. apply in_map_iff in J as ((k, a) & E & J). cbn in E. subst k.
    apply I in J as (_ & w & W & _). apply N. exact (in_map fst _ _ W).
Qed.
Print Assumptions C76_shells.
(** No text means no unit; a text that is not a unit raises a TypeError. *)
Theorem C76_unit_text {U} (munit : str -> result U) :
  (forall u, munit (s "1") = Ok u -> context_unit munit [] = Ok u) /\
  (forall t u, t <> [] -> munit t = Ok u -> context_unit munit t = Ok u) /\
  (forall t, t <> [] -> munit t = Raise ValueError \/ munit t = Raise TypeError -> context_unit munit t = Raise TypeError).
Proof.
  split; [|split].
  - intros u E. unfold context_unit. rewrite E. reflexivity.
  - intros [|c t] u N E; [congruence|]. unfold context_unit. rewrite E. reflexivity.
  - intros [|c t] N [E|E]; try congruence; unfold context_unit; rewrite E; reflexivity.
Qed.
Print Assumptions C76_unit_text.

(** ** C70: empty texts and empty objects count as not given *)
Theorem C70_empty libm limit y u d q :
  SystemsModel.get_unit libm limit y (Some (UText [])) d q = SystemsModel.get_unit libm limit y None d q /\ SystemsModel.get_unit libm limit y (Some (UObj [])) d q = SystemsModel.get_unit libm limit y None d q /\
  SystemsModel.get_unit libm limit y u (Some (DText [])) q = SystemsModel.get_unit libm limit y u None q /\ SystemsModel.get_unit libm limit y u (Some (DObj [])) q = SystemsModel.get_unit libm limit y u None q /\
  SystemsModel.get_unit libm limit y u d (Some (QName [])) = SystemsModel.get_unit libm limit y u d None.
Proof. repeat split. Qed.
Print Assumptions C70_empty.

(** ** C44: the observables of a dataset *)
(** An observable is found under its name and under every other name that stands
    for it; a name that stands for nothing raises a KeyError. *)
Theorem C44_names {U B} (names : list (str * str)) defined (attr : str -> option (quantity (U := U) (B := B))) :
  (forall k n q, NoDup (map fst names) -> In (k, n) names \/ ~ In k (map fst names) /\ k = n -> In n defined -> attr n = Some q -> get_observable names defined attr k = Ok q) /\
  (forall k n, NoDup (map fst names) -> In (k, n) names \/ ~ In k (map fst names) /\ k = n -> ~ In n defined -> get_observable names defined attr k = Raise KeyError).
Proof.
  assert (C : forall k n, NoDup (map fst names) -> In (k, n) names \/ ~ In k (map fst names) /\ k = n -> canonical names k = n).
  { intros k n Nn H. unfold canonical. destruct H as [H|(H & ->)]; [rewrite (proj2 (lookup_in str_eqb str_decides names _ _ Nn) H); reflexivity|].
    rewrite (proj2 (lookup_missing str_eqb str_decides names n KeyError)) by auto. reflexivity. }
  split; intros k n; [intros q|]; intros Nn H D; [intros A|]; unfold get_observable; rewrite (C k n Nn H).
  - rewrite (proj2 (mem_spec str_eqb str_decides _ _) D), A. reflexivity.
  - rewrite (proj2 (mem_false str_eqb str_decides _ _) D). reflexivity.
Qed.
Print Assumptions C44_names.

(** ** C65: values that cannot be the value of a sentinel *)
(** A value that cannot be hashed raises a TypeError, a sentinel a
    SentinelValueError; in both cases no sentinel is created. *)
Theorem C65_no_sentinel st name : (forall n, sentinel st name (SUnhashable n) = (Raise TypeError, st)) /\ forall i, sentinel st name (SSentinel i) = (Raise (OtherError "SentinelValueError"), st).
Proof. split; reflexivity. Qed.
Print Assumptions C65_no_sentinel.
