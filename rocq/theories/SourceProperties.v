(** * Properties of the readers of EPREM source files *)
From Verif Require Import PyBase PyLemmas ContainerModel ContainerProofs ContainerProofs2 SymbolicModel SymbolicSpec ConfigModel ConfigSpec ConfigProofs ConfigProperties
  ParameterModel ParameterSpec ParameterProofs ParameterRuntime SourceModel SourceSpec SourceProofs.

(** ** lines *)
(** A line defines a constant iff it is a directive "#define NAME value", with
    blanks anywhere but inside its parts. *)
Theorem C77_constant_line line name value : define_match line = Some (name, value) <-> constant_line line name value.
Proof. apply constant_iff. Qed.
Print Assumptions C77_constant_line.
(** A line declares a parameter iff it assigns the result of a reader; its
    attributes are the arguments between the commas, by position. *)
Theorem C77_parameter_line line key attributes :
  option_map call_parse (call_match line) = Some (key, attributes) <-> parameter_line line key attributes.
Proof. apply parameter_iff. Qed.
Print Assumptions C77_parameter_line.
(** A line declares an array iff it defines one with one element. *)
Theorem C77_array_line line name v : option_map array_parse (array_match line) = Some (name, v) <-> array_declared line name v.
Proof. apply array_declared_iff. Qed.
Print Assumptions C77_array_line.

(** ** files *)
Lemma constant_declared l k v : declared define_match (fun nv => nv) l k v <-> constant_line l k v.
Proof. unfold declared. rewrite <- constant_iff. destruct (define_match l); reflexivity. Qed.
Lemma parameter_declared l k v : declared call_match call_parse l k v <-> parameter_line l k v.
Proof. apply parameter_iff. Qed.
(** A constant has the value of its last definition; nothing else is defined. *)
Theorem C77_constants text : NoDup (map fst (load_constants text)) /\
  forall name value, lookup str_eqb (load_constants text) name = Ok value <-> last_declared constant_line (file_lines text) name value.
Proof.
  destruct (extract_spec define_match (fun nv => nv) text) as (ND & G). split; [exact ND|]. intros k v. unfold load_constants. rewrite G.
  apply last_declared_impl, constant_declared.
Qed.
Print Assumptions C77_constants.
(** The lines in the theorem are those of the file, however it ends them. *)
Theorem C77_lines nl lines final : In nl newline_conventions -> Forall one_line lines -> one_line final ->
  file_lines (text_of nl lines final) = lines ++ [final].
Proof. apply C32_lines. Qed.

Section Order.
Context {A V : Type}.
Variable m : str -> option A.
Variable p : A -> str * V.
Lemma names_unique lines : exists names, names_declared (declared m p) lines names.
Proof using.
  induction lines as [|l lines (names & N)]; [exists []; constructor|]. destruct (m l) as [a|] eqn:M.
  - exists (fst (p a) :: names). apply names_more with (v := snd (p a)); [|exact N]. unfold declared. rewrite M. cbn. rewrite <- surjective_pairing. reflexivity.
  - exists names. apply names_skip; [|exact N]. unfold declared. intros k v H. rewrite M in H. discriminate.
Qed.
Lemma filter_filter {X} (f g : X -> bool) l : filter f (filter g l) = filter (fun x => g x && f x) l.
Proof using. induction l as [|x l IH]; [reflexivity|]. cbn. destruct (g x); cbn; [destruct (f x); rewrite IH; reflexivity|exact IH]. Qed.
Lemma filter_ext {X} (f g : X -> bool) l : (forall x, f x = g x) -> filter f l = filter g l.
Proof using. intros H. induction l as [|x l IH]; [reflexivity|]. cbn. rewrite H, IH. reflexivity. Qed.
Lemma order_loop lines names : names_declared (declared m p) lines names -> forall d,
  map fst (fold_left (fun d l => match m l with Some a => dict_put str_eqb d (fst (p a)) (snd (p a)) | None => d end) lines d) =
  map fst d ++ filter (fun k => negb (mem str_eqb k (map fst d))) (first_occurrences names).
Proof using.
  induction 1 as [|l lines k v names D N IH|l lines names D N IH]; intros d; cbn [fold_left first_occurrences filter].
  - rewrite app_nil_r. reflexivity.
  - unfold declared in D. destruct (m l) as [a|]; [|discriminate D]. cbn in D. injection D as D. rewrite D. cbn [fst snd]. rewrite IH.
    destruct (mem str_eqb k (map fst d)) eqn:M; cbn [negb].
    + apply (mem_spec str_eqb str_decides) in M. rewrite (dict_put_old _ _ _ M). f_equal. rewrite filter_filter. apply filter_ext. intros x.
      destruct (str_eqb_spec k x) as [<-|NE]; cbn; [rewrite (proj2 (mem_spec str_eqb str_decides _ _) M); reflexivity|reflexivity].
    + assert (NI : ~ In k (map fst d)) by (apply (mem_false str_eqb str_decides), M). rewrite (dict_put_new str_eqb str_decides) by exact NI.
      rewrite map_app. cbn [map fst]. rewrite <- app_assoc. cbn [app]. f_equal. f_equal. rewrite filter_filter. apply filter_ext. intros x.
      destruct (str_eqb_spec k x) as [<-|NE]; cbn.
      * replace (mem str_eqb k (map fst d ++ [k])) with true; [reflexivity|]. symmetry. apply (mem_spec str_eqb str_decides), in_or_app. right. left. reflexivity.
      * f_equal. apply Bool.eq_iff_eq_true. rewrite !(mem_spec str_eqb str_decides), in_app_iff. cbn. split; [intros [H|[H|[]]]; [exact H|contradiction]|auto].
  - destruct (m l) as [a|] eqn:M; [|apply IH]. exfalso. apply (D (fst (p a)) (snd (p a))). unfold declared. rewrite M. cbn. rewrite <- surjective_pairing. reflexivity.
Qed.
Lemma order_extract text names : names_declared (declared m p) (file_lines text) names -> map fst (extract m p text) = first_occurrences names.
Proof using.
  intros N. unfold extract. rewrite (order_loop _ _ N []). cbn. clear N. induction (first_occurrences names) as [|x l IH]; [reflexivity|]. cbn. congruence.
Qed.
Lemma writes_loop lines table : writes (declared m p) lines table -> forall d, NoDup (map fst (d ++ table)) ->
  fold_left (fun d l => match m l with Some a => dict_put str_eqb d (fst (p a)) (snd (p a)) | None => d end) lines d = d ++ table.
Proof using.
  induction 1 as [|l lines k v table D N IH|l lines table D N IH]; intros d ND; cbn [fold_left].
  - symmetry. apply app_nil_r.
  - unfold declared in D. destruct (m l) as [a|]; [|discriminate D]. cbn in D. injection D as D. rewrite D. cbn [fst snd].
    assert (E : d ++ (k, v) :: table = (d ++ [(k, v)]) ++ table) by (rewrite <- app_assoc; reflexivity).
    rewrite (dict_put_new str_eqb str_decides).
    + rewrite IH; [symmetry; exact E|]. rewrite E in ND. exact ND.
    + rewrite map_app in ND. cbn in ND. apply NoDup_remove_2 in ND. intros I. apply ND, in_or_app. left. exact I.
  - destruct (m l) as [a|] eqn:M; [|apply IH, ND]. exfalso. apply (D (fst (p a)) (snd (p a))). unfold declared. rewrite M. cbn. rewrite <- surjective_pairing. reflexivity.
Qed.
Lemma writes_impl (P Q : str -> str -> V -> Prop) lines table : (forall l k v, P l k v <-> Q l k v) -> writes P lines table -> writes Q lines table.
Proof using.
  intros H. induction 1 as [|l lines k v table D N IH|l lines table D N IH]; [constructor|apply writes_more; [apply H, D|exact IH]|].
  apply writes_skip; [|exact IH]. intros k v D'. apply (D k v), H, D'.
Qed.
Lemma names_impl (P Q : str -> str -> V -> Prop) lines names : (forall l k v, P l k v <-> Q l k v) -> names_declared P lines names -> names_declared Q lines names.
Proof using.
  intros H. induction 1 as [|l lines k v names D N IH|l lines names D N IH]; [constructor|apply names_more with (v := v); [apply H, D|exact IH]|].
  apply names_skip; [|exact IH]. intros k v D'. apply (D k v), H, D'.
Qed.
Lemma writes_snoc (P : str -> str -> V -> Prop) lines table l : writes P lines table -> (forall k v, ~ P l k v) -> writes P (lines ++ [l]) table.
Proof using.
  induction 1 as [|l' lines k v table D N IH|l' lines table D N IH]; intros F; cbn; [apply writes_skip; [exact F|constructor]|apply writes_more; auto|apply writes_skip; auto].
Qed.
End Order.
(** Names come in the order of their first definitions. *)
Theorem C77_order text : (exists names, names_declared constant_line (file_lines text) names) /\
  forall names, names_declared constant_line (file_lines text) names -> map fst (load_constants text) = first_occurrences names.
Proof.
  split.
  - destruct (names_unique define_match (fun nv => nv) (file_lines text)) as (names & N). exists names. exact (names_impl _ _ _ _ constant_declared N).
  - intros names N. apply order_extract. refine (names_impl _ _ _ _ _ N). intros l k v. symmetry. apply constant_declared.
Qed.
Print Assumptions C77_order.

(** A file that defines the entries of a table, among any other lines, is read
    back as that table. *)
Theorem C77_constants_written nl lines final table : In nl newline_conventions -> Forall one_line lines -> one_line final ->
  NoDup (map fst table) -> writes constant_line (lines ++ [final]) table -> load_constants (text_of nl lines final) = table.
Proof.
  intros I F O ND W. unfold load_constants, extract. rewrite C32_lines by assumption. rewrite (writes_loop define_match (fun nv => nv) _ table); [reflexivity| |exact ND].
  refine (writes_impl _ _ _ _ _ W). intros l k v. symmetry. apply constant_declared.
Qed.
Print Assumptions C77_constants_written.

(** ** parameters *)
Lemma combine_names (names vs : list str) x : In x (map fst (combine names vs)) -> In x names.
Proof. revert vs. induction names as [|n names IH]; intros [|v vs]; cbn; try tauto. intros [H|H]; [auto|right; exact (IH vs H)]. Qed.
Lemma combine_nodup (names vs : list str) : NoDup names -> NoDup (map fst (combine names vs)).
Proof.
  intros ND. revert vs. induction ND as [|n names N ND IH]; intros [|v vs]; cbn; try constructor.
  - intros J. apply N, (combine_names _ _ _ J).
  - apply IH.
Qed.
Lemma names_nodup r : NoDup (s "mode" :: attribute_names r).
Proof. destruct r; cbn; repeat (constructor; [cbn; intuition discriminate|]); constructor. Qed.
Lemma attributes_nodup l k attrs : parameter_line l k attrs -> NoDup (map fst attrs).
Proof.
  intros (r & items & values & _ & _ & _ & _ & ->). cbn [map fst]. pose proof (names_nodup r) as ND. apply NoDup_cons_iff in ND as (N & ND). constructor; [|apply combine_nodup, ND].
  intros J. apply N, (combine_names _ _ _ J).
Qed.
Lemma assignments_spec text : NoDup (map fst (get_assignments text)) /\
  forall k attrs, lookup str_eqb (get_assignments text) k = Ok attrs <-> last_declared parameter_line (file_lines text) k attrs.
Proof.
  destruct (extract_spec call_match call_parse text) as (ND & G). split; [exact ND|]. intros k v. unfold get_assignments. rewrite G.
  apply last_declared_impl, parameter_declared.
Qed.
Lemma arrays_spec text d v : lookup str_eqb (get_arrays text) d = Ok v <-> last_declared array_declared (file_lines text) d v.
Proof.
  destruct (extract_spec array_match array_parse text) as (_ & G). unfold get_arrays. rewrite G. apply last_declared_impl. intros l k w. apply array_declared_iff.
Qed.
Lemma lookup_none {V} (m : list (str * V)) k e : lookup str_eqb m k = Raise e -> e = KeyError /\ forall v, ~ In (k, v) m.
Proof.
  intros H. apply (lookup_missing str_eqb str_decides) in H as (-> & N). split; [reflexivity|]. intros v I. apply N. exact (in_map fst _ _ I).
Qed.
Lemma substitute_spec text attrs : NoDup (map fst attrs) ->
  match substitute (get_arrays text) attrs with
  | Ok r => forall r', resolved (file_lines text) attrs r' <-> r' = r
  | Raise e => e = KeyError /\ ((forall m, ~ In (s "mode", m) attrs) \/ incomplete (file_lines text) attrs) /\ forall r', ~ resolved (file_lines text) attrs r'
  end.
Proof.
  intros ND. pose proof (fun k v => lookup_in str_eqb str_decides attrs k v ND) as L. unfold substitute, resolved, incomplete.
  assert (U : forall k v, lookup str_eqb attrs k = Ok v -> forall w, In (k, w) attrs -> w = v).
  { intros k v E w I. apply L in I. congruence. }
  destruct (lookup str_eqb attrs (s "defaultVal")) as [d|e] eqn:D; cbn [bind].
  2: { apply lookup_none in D as (-> & N). split; [reflexivity|]. split; [right; left; exact N|]. intros r' (d & I & _). exact (N d I). }
  pose proof (proj1 (L _ _) D) as ID. pose proof (U _ _ D) as UD.
  destruct (lookup str_eqb (get_arrays text) d) as [[n v]|e] eqn:A.
  2: { assert (NA : forall v, ~ last_declared array_declared (file_lines text) d v) by (intros v H; apply arrays_spec in H; congruence).
       intros r'. split.
       - intros (d' & I & [(_ & E)|(n & v & m & lo & hi & LD & _)]); [exact E|]. rewrite (UD d' I) in LD. exfalso. exact (NA _ LD).
       - intros ->. exists d. split; [exact ID|]. left. split; [exact NA|reflexivity]. }
  assert (UA : forall w, last_declared array_declared (file_lines text) d w <-> w = (n, v)).
  { intros w. rewrite <- arrays_spec, A. split; [intros E; injection E as <-; reflexivity|intros ->; reflexivity]. }
  destruct (lookup str_eqb attrs (s "mode")) as [m|e] eqn:M; cbn [bind].
  2: { apply lookup_none in M as (-> & N). split; [reflexivity|]. split; [left; exact N|]. intros r' (d' & I & [(NA & _)|(n' & v' & m & lo & hi & _ & IM & _)]).
       - rewrite (UD d' I) in NA. apply (NA (n, v)), UA. reflexivity.
       - exact (N m IM). }
  destruct (lookup str_eqb attrs (s "maxVal")) as [hi|e] eqn:H; cbn [bind].
  2: { apply lookup_none in H as (-> & N). split; [reflexivity|]. split; [right; right; exists d, n, v; split; [exact ID|split; [apply UA; reflexivity|right; exact N]]|].
       intros r' (d' & I & [(NA & _)|(n' & v' & m' & lo & hi & _ & _ & _ & IH & _)]).
       - rewrite (UD d' I) in NA. apply (NA (n, v)), UA. reflexivity.
       - exact (N hi IH). }
  destruct (lookup str_eqb attrs (s "minVal")) as [lo|e] eqn:Lo; cbn [bind].
  2: { apply lookup_none in Lo as (-> & N). split; [reflexivity|]. split; [right; right; exists d, n, v; split; [exact ID|split; [apply UA; reflexivity|left; exact N]]|].
       intros r' (d' & I & [(NA & _)|(n' & v' & m' & lo & hi' & _ & _ & IL & _)]).
       - rewrite (UD d' I) in NA. apply (NA (n, v)), UA. reflexivity.
       - exact (N lo IL). }
  intros r'. split.
  - intros (d' & I & [(NA & _)|(n' & v' & m' & lo' & hi' & LD & IM & IL & IH & ->)]).
    + rewrite (UD d' I) in NA. exfalso. apply (NA (n, v)), UA. reflexivity.
    + rewrite (UD d' I) in LD. apply UA in LD. injection LD as -> ->. rewrite (U _ _ M _ IM), (U _ _ H _ IH), (U _ _ Lo _ IL). reflexivity.
  - intros ->. exists d. split; [exact ID|]. right. exists n, v, m, lo, hi. split; [apply UA; reflexivity|]. split; [apply L, M|]. split; [apply L, Lo|]. split; [apply L, H|reflexivity].
Qed.
Lemma parameter_mode l k attrs : parameter_line l k attrs -> exists m, In (s "mode", m) attrs.
Proof. intros (r & items & values & _ & _ & _ & _ & ->). exists (reader_text r). left. reflexivity. Qed.
Lemma mapM_raise {X Y} (f : X -> result Y) l e : mapM f l = Raise e -> exists x, In x l /\ f x = Raise e.
Proof.
  induction l as [|x l IH]; cbn; [discriminate|]. destruct (f x) as [y|e'] eqn:F; cbn [bind].
  - destruct (mapM f l); cbn; [discriminate|]. intros H. destruct (IH H) as (z & I & E). exists z. auto.
  - intros H. injection H as ->. exists x. auto.
Qed.
(** Reading the parameters: the attributes of a parameter are those of its last
    declaration, with the name of an array in place of the default replaced by
    the array; this fails iff one of them lacks an attribute that is needed. *)
Theorem C77_parameters text :
  match load_parameters text with
  | Ok defs => NoDup (map fst defs) /\ (forall names, names_declared parameter_line (file_lines text) names -> map fst defs = first_occurrences names) /\
      forall k attrs, lookup str_eqb defs k = Ok attrs <->
        exists declared, last_declared parameter_line (file_lines text) k declared /\ resolved (file_lines text) declared attrs
  | Raise e => e = KeyError /\ exists k declared, last_declared parameter_line (file_lines text) k declared /\ incomplete (file_lines text) declared
  end.
Proof.
  destruct (assignments_spec text) as (ND & G). unfold load_parameters.
  set (f := fun ka : str * list (str * str) => a <- substitute (get_arrays text) (snd ka) ;; Ok (fst ka, a)).
  assert (IN : forall k a, In (k, a) (get_assignments text) -> last_declared parameter_line (file_lines text) k a /\ NoDup (map fst a) /\ exists m, In (s "mode", m) a).
  { intros k a I. apply (lookup_in str_eqb str_decides _ _ _ ND), G in I. split; [exact I|]. destruct I as (b & l & af & _ & D & _). split; [exact (attributes_nodup _ _ _ D)|exact (parameter_mode _ _ _ D)]. }
  destruct (mapM f (get_assignments text)) as [defs|e] eqn:M.
  - apply mapM_Forall2 in M.
    assert (K : map fst defs = map fst (get_assignments text)).
    { clear -M. induction M as [|[k a] y l l' E M IH]; [reflexivity|]. unfold f in E. cbn in E. destruct (substitute (get_arrays text) a); cbn in E; [|discriminate]. injection E as <-. cbn. f_equal. exact IH. }
    assert (NDd : NoDup (map fst defs)) by (rewrite K; exact ND). split; [exact NDd|]. split.
    + intros names N. rewrite K. apply order_extract. refine (names_impl _ _ _ _ _ N). intros l k v. symmetry. apply parameter_declared.
    + intros k attrs. rewrite (lookup_in str_eqb str_decides _ _ _ NDd).
      assert (P : In (k, attrs) defs <-> exists a, In (k, a) (get_assignments text) /\ substitute (get_arrays text) a = Ok attrs).
      { clear -M. induction M as [|[k' a'] [k2 a2] l l' E M IH]; [split; [intros []|intros (a & [] & _)]|]. unfold f in E. cbn in E.
        destruct (substitute (get_arrays text) a') as [r|] eqn:S; cbn in E; [|discriminate]. injection E as <- <-. cbn. rewrite IH. split.
        - intros [H|(a & I & H)]; [injection H as -> ->; exists a'; split; [left; reflexivity|exact S]|exists a; auto].
        - intros (a & [H|I] & H2); [injection H as -> ->; left; congruence|right; exists a; auto]. }
      rewrite P. split.
      * intros (a & I & S). destruct (IN k a I) as (LD & NDa & _). exists a. split; [exact LD|]. pose proof (substitute_spec text a NDa) as H. rewrite S in H. apply H. reflexivity.
      * intros (a & LD & R). exists a. assert (I : In (k, a) (get_assignments text)) by (apply (lookup_in str_eqb str_decides _ _ _ ND), G, LD). split; [exact I|].
        destruct (IN k a I) as (_ & NDa & _). pose proof (substitute_spec text a NDa) as H. destruct (substitute (get_arrays text) a) as [r|e']; [apply H in R; congruence|].
        exfalso. destruct H as (_ & _ & H). exact (H _ R).
  - apply mapM_raise in M as ([k a] & I & E). unfold f in E. cbn in E. destruct (IN k a I) as (LD & NDa & m & IM). pose proof (substitute_spec text a NDa) as H.
    destruct (substitute (get_arrays text) a) as [r|e']; cbn in E; [discriminate|]. injection E as <-. destruct H as (-> & [H|H] & _); [exfalso; exact (H m IM)|].
    split; [reflexivity|]. exists k, a. auto.
Qed.
Print Assumptions C77_parameters.

(** ** definitions *)
(** the Python types that stand for the readers *)
Definition reader_type (r : reader) : ptype := match r with ReadInt => TInt | ReadDouble => TFloat | ReadString => TStr | ReadArray => TList end.
Lemma type_of_mode_ok a t : type_of_mode a = Ok t <-> exists r, a = AText (reader_text r) /\ t = AType (reader_type r).
Proof.
  split.
  - unfold type_of_mode. destruct a as [m|]; [|discriminate].
    destruct (str_eqb_spec m (s "readInt")) as [->|]; [intros H; injection H as <-; exists ReadInt; auto|].
    destruct (str_eqb_spec m (s "readDouble")) as [->|]; [intros H; injection H as <-; exists ReadDouble; auto|].
    destruct (str_eqb_spec m (s "readString")) as [->|]; [intros H; injection H as <-; exists ReadString; auto|].
    destruct (str_eqb_spec m (s "readDoubleArray")) as [->|]; [intros H; injection H as <-; exists ReadArray; auto|discriminate].
  - intros (r & -> & ->). destruct r; reflexivity.
Qed.
Lemma mode_of_reader r : mode_of_type (AType (reader_type r)) = Ok (AText (reader_text r)).
Proof. destruct r; reflexivity. Qed.
Lemma lookup_filter {V} (l : list (str * V)) old k : lookup str_eqb (filter (fun kv => negb (str_eqb (fst kv) old)) l) k = if str_eqb old k then Raise KeyError else lookup str_eqb l k.
Proof.
  induction l as [|[h v] l IH]; cbn; [destruct (str_eqb old k); reflexivity|]. destruct (str_eqb_spec h old) as [->|N]; cbn [negb].
  - rewrite IH. destruct (str_eqb old k); reflexivity.
  - cbn [lookup]. rewrite IH. destruct (str_eqb_spec h k) as [E|_]; [|reflexivity]. destruct (str_eqb_spec old k) as [E2|_]; [congruence|reflexivity].
Qed.
Lemma nodup_filtered {V} (f : str * V -> bool) (l : list (str * V)) : NoDup (map fst l) -> NoDup (map fst (filter f l)).
Proof.
  induction l as [|x l IH]; cbn; [auto|]. intros ND. inversion ND as [|? ? N ND']; subst. destruct (f x); [|apply IH, ND']. cbn. constructor; [|apply IH, ND'].
  intros I. apply N. apply in_map_iff in I as (y & E & I). rewrite <- E. apply in_map. apply filter_In in I. tauto.
Qed.
(** one step of [replace_attr] *)
Lemma replaced_lookup (a : list (str * attr)) old new y k : NoDup (map fst a) -> ~ In new (map fst a) \/ old = new ->
  lookup str_eqb (update [(new, y)] (filter (fun kv => negb (str_eqb (fst kv) old)) a)) k =
  if str_eqb new k then Ok y else if str_eqb old k then Raise KeyError else lookup str_eqb a k.
Proof.
  intros ND N. rewrite update_get by (apply nodup_filtered, ND). rewrite lookup_filter. cbn [lookup].
  destruct (str_eqb_spec new k) as [<-|N1].
  - destruct (str_eqb_spec old new) as [_|N2]; [reflexivity|]. destruct N as [N|N]; [|contradiction].
    rewrite (proj2 (lookup_missing str_eqb str_decides a new KeyError)) by auto. reflexivity.
  - destruct (str_eqb old k); [reflexivity|]. destruct (lookup str_eqb a k) as [v|e] eqn:E; [reflexivity|].
    apply (lookup_missing str_eqb str_decides) in E as (-> & _). reflexivity.
Qed.
Lemma lookup_mapM {V W} (f : str * V -> result (str * W)) (g : V -> result W) m m' : (forall ka, f ka = (w <- g (snd ka) ;; Ok (fst ka, w))) -> mapM f m = Ok m' ->
  map fst m' = map fst m /\ forall k, lookup str_eqb m' k = (v <- lookup str_eqb m k ;; g v).
Proof.
  intros F. revert m'. induction m as [|[k0 v0] m IH]; intros m' M; cbn [mapM] in M.
  - injection M as <-. split; reflexivity.
  - rewrite F in M. cbn [fst snd] in M. destruct (g v0) as [w|] eqn:G; cbn in M; [|discriminate]. destruct (mapM f m) as [r|] eqn:R; cbn in M; [|discriminate]. injection M as <-.
    destruct (IH r eq_refl) as (K & L). split; [cbn; congruence|]. intros k. cbn [lookup]. destruct (str_eqb k0 k); [cbn; rewrite G; reflexivity|apply L].
Qed.
Definition texts_of_attributes (a : list (str * str)) : list (str * attr) := map (fun kv => (fst kv, AText (snd kv))) a.
Lemma lookup_texts a k : lookup str_eqb (texts_of_attributes a) k = (x <- lookup str_eqb a k ;; Ok (AText x)).
Proof. induction a as [|[h v] a IH]; cbn; [reflexivity|]. destruct (str_eqb h k); [reflexivity|exact IH]. Qed.
Lemma keys_texts a : map fst (texts_of_attributes a) = map fst a.
Proof. unfold texts_of_attributes. rewrite map_map. reflexivity. Qed.
Lemma texts_lookup m k : lookup str_eqb (texts m) k = (a <- lookup str_eqb m k ;; Ok (texts_of_attributes a)).
Proof. unfold texts. induction m as [|[h v] m IH]; cbn; [reflexivity|]. destruct (str_eqb h k); [reflexivity|exact IH]. Qed.
(** tables as they are loaded: dictionaries of attributes, with a mode *)
Definition loadable (m : list (str * list (str * str))) : Prop := forall k a, In (k, a) m -> NoDup (map fst a) /\ ~ In (s "type") (map fst a) /\ exists r, In (s "mode", reader_text r) a.
(** [get_raw] and the definitions show what was loaded. *)
Theorem C77_definitions m : loadable m -> NoDup (map fst m) -> exists defs, standardize m = Ok defs /\ map fst defs = map fst m /\
  forall k a, lookup str_eqb m k = Ok a -> exists d raw r, lookup str_eqb defs k = Ok d /\ get_raw defs k = Ok (Some raw) /\ In (s "mode", reader_text r) a /\
    (forall name, lookup str_eqb d name = if str_eqb (s "type") name then Ok (AType (reader_type r)) else if str_eqb (s "mode") name then Raise KeyError else x <- lookup str_eqb a name ;; Ok (AText x)) /\
    (forall name, lookup str_eqb raw name = x <- lookup str_eqb a name ;; Ok (AText x)).
Proof.
  intros L ND.
  set (g := fun a : list (str * attr) => x <- lookup str_eqb a (s "mode") ;; y <- type_of_mode x ;; Ok (update [(s "type", y)] (filter (fun kv => negb (str_eqb (fst kv) (s "mode"))) a))).
  set (h := fun a : list (str * attr) => x <- lookup str_eqb a (s "type") ;; y <- mode_of_type x ;; Ok (update [(s "mode", y)] (filter (fun kv => negb (str_eqb (fst kv) (s "type"))) a))).
  assert (OK : exists defs, standardize m = Ok defs).
  { unfold standardize, replace_attr, texts. clear ND. induction m as [|[k a] m IH]; [exists []; reflexivity|]. cbn [map mapM fst snd].
    destruct (L k a (or_introl eq_refl)) as (NDa & NT & r & IM). fold (texts_of_attributes a). rewrite lookup_texts.
    rewrite (proj2 (lookup_in str_eqb str_decides a _ _ NDa) IM). cbn [bind]. rewrite (proj2 (type_of_mode_ok _ _) (ex_intro _ r (conj eq_refl eq_refl))). cbn [bind].
    destruct IH as (defs & E); [intros k' a' I; apply (L k' a'); right; exact I|]. rewrite E. cbn [bind]. eexists. reflexivity. }
  destruct OK as (defs & OK). exists defs. split; [exact OK|]. unfold standardize, replace_attr in OK.
  pose proof (fun H => lookup_mapM _ g _ _ H OK) as KG. destruct KG as (K & G).
  { intros ka. unfold g. destruct (lookup str_eqb (snd ka) (s "mode")) as [x|]; [cbn [bind]; destruct (type_of_mode x); reflexivity|reflexivity]. }
  split; [rewrite K; unfold texts; rewrite map_map; reflexivity|].
  assert (ALL : forall k d, In (k, d) defs -> exists a r, In (k, a) m /\ In (s "mode", reader_text r) a /\ g (texts_of_attributes a) = Ok d /\ NoDup (map fst a) /\ ~ In (s "type") (map fst a)).
  { intros k d I. assert (NDd : NoDup (map fst defs)) by (rewrite K; unfold texts; rewrite map_map; exact ND).
    apply (lookup_in str_eqb str_decides _ _ _ NDd) in I. rewrite G, texts_lookup in I. destruct (lookup str_eqb m k) as [a|] eqn:E; cbn in I; [|discriminate].
    apply (lookup_in str_eqb str_decides _ _ _ ND) in E. destruct (L k a E) as (NDa & NT & r & IM). exists a, r. auto. }
  assert (GD : forall a r, In (s "mode", reader_text r) a -> NoDup (map fst a) -> ~ In (s "type") (map fst a) ->
    exists d, g (texts_of_attributes a) = Ok d /\ NoDup (map fst d) /\
      forall name, lookup str_eqb d name = if str_eqb (s "type") name then Ok (AType (reader_type r)) else if str_eqb (s "mode") name then Raise KeyError else x <- lookup str_eqb a name ;; Ok (AText x)).
  { intros a r IM NDa NT. unfold g. rewrite lookup_texts, (proj2 (lookup_in str_eqb str_decides a _ _ NDa) IM). cbn [bind].
    rewrite (proj2 (type_of_mode_ok _ _) (ex_intro _ r (conj eq_refl eq_refl))). cbn [bind]. eexists. split; [reflexivity|]. split; [apply update_nodup; repeat constructor; intros []|].
    intros name. rewrite replaced_lookup; [|rewrite keys_texts; exact NDa|left; rewrite keys_texts; exact NT]. rewrite lookup_texts. reflexivity. }
  assert (HR : forall a r d, In (s "mode", reader_text r) a -> NoDup (map fst a) -> NoDup (map fst d) ->
     (forall name, lookup str_eqb d name = if str_eqb (s "type") name then Ok (AType (reader_type r)) else if str_eqb (s "mode") name then Raise KeyError else x <- lookup str_eqb a name ;; Ok (AText x)) ->
     ~ In (s "type") (map fst a) -> exists raw, h d = Ok raw /\ forall name, lookup str_eqb raw name = x <- lookup str_eqb a name ;; Ok (AText x)).
  { intros a r d IM NDa NDd LD NT. unfold h. rewrite LD. change (str_eqb (s "type") (s "type")) with true. cbn iota. cbn [bind]. rewrite mode_of_reader. cbn [bind]. eexists. split; [reflexivity|].
    intros name. assert (NM : ~ In (s "mode") (map fst d)).
    { intros I. apply in_map_iff in I as ([k v] & E & I). cbn in E. subst k. apply (lookup_in str_eqb str_decides _ _ _ NDd) in I. rewrite LD in I. discriminate. }
    rewrite replaced_lookup by (try exact NDd; left; exact NM). rewrite LD.
    destruct (str_eqb_spec (s "mode") name) as [<-|N1]; [rewrite (proj2 (lookup_in str_eqb str_decides a _ _ NDa) IM); reflexivity|].
    destruct (str_eqb_spec (s "type") name) as [<-|N2]; [|reflexivity]. rewrite (proj2 (lookup_missing str_eqb str_decides a (s "type") KeyError)) by auto. reflexivity. }
  assert (RAW : exists raw, replace_attr (s "type") (s "mode") mode_of_type defs = Ok raw).
  { clear OK K G. unfold replace_attr. induction defs as [|[k d] defs IH]; [exists []; reflexivity|]. cbn [mapM fst snd].
    destruct (ALL k d (or_introl eq_refl)) as (a & r & I & IM & GA & NDa & NT). destruct (GD a r IM NDa NT) as (d' & GA' & NDd & LD). rewrite GA in GA'. injection GA' as <-.
    destruct (HR a r d IM NDa NDd LD NT) as (raw & E & _). unfold h in E. destruct (lookup str_eqb d (s "type")) as [x|]; cbn [bind] in E |- *; [|discriminate].
    destruct (mode_of_type x) as [y|]; cbn [bind] in E |- *; [|discriminate]. destruct IH as (raws & R); [intros k' d' I'; apply (ALL k' d'); right; exact I'|].
    rewrite R. cbn [bind]. eexists. reflexivity. }
  destruct RAW as (raws & RAW). intros k a LA. pose proof (proj1 (lookup_in str_eqb str_decides _ _ _ ND) LA) as IA. destruct (L k a IA) as (NDa & NT & r & IM).
  destruct (GD a r IM NDa NT) as (d & GA & NDd & LD). destruct (HR a r d IM NDa NDd LD NT) as (raw & HA & LR). exists d, raw, r.
  split; [rewrite G, texts_lookup, LA; exact GA|]. split.
  - unfold get_raw. rewrite RAW. cbn [bind]. unfold replace_attr in RAW.
    pose proof (fun H => lookup_mapM _ h _ _ H RAW) as KG. destruct KG as (_ & G').
    { intros ka. unfold h. destruct (lookup str_eqb (snd ka) (s "type")) as [x|]; [cbn [bind]; destruct (mode_of_type x); reflexivity|reflexivity]. }
    rewrite G', G, texts_lookup, LA. cbn [bind]. rewrite GA. cbn [bind]. rewrite HA. reflexivity.
  - split; [exact IM|]. split; [exact LD|exact LR].
Qed.
Print Assumptions C77_definitions.
