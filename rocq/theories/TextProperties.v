(** * Texts of EPREM source files (C97) *)
From Verif Require Import PyBase PyLemmas ContainerModel SymbolicModel ConfigModel ParameterModel SourceModel ContainerProofs2 ConfigProofs ConfigProperties SymbolicProofs AxisProofs ParameterRuntime SourceSpec SourceProperties TextModel TextSpec.
From Coq Require Import Sorting.Sorted.

(** ** running the reader *)
Lemma run_app st a b : run st (a ++ b) =
  match run st a with
  | Some (ts, st') => match run st' b with Some (us, st'') => Some (ts ++ us, st'') | None => None end
  | None => None
  end.
Proof.
  revert st. induction a as [|c a IH]; intros st; cbn [app run].
  - now destruct (run st b) as [[us st'']|].
  - destruct (step st c) as [[ts st']|]; [|reflexivity]. rewrite IH.
    destruct (run st' a) as [[us st'']|]; [|reflexivity].
    destruct (run st'' b) as [[vs st3]|]; [|reflexivity]. now rewrite app_assoc.
Qed.
Lemma run_char q x c : q = "039"%char \/ q = "034"%char -> run (InText q x) (escape_char q c) = Some ([], InText q (x ++ [c])).
Proof. intros [-> | ->]; destruct c as [[] [] [] [] [] [] [] []]; reflexivity. Qed.
Lemma run_chars q x y : q = "039"%char \/ q = "034"%char -> run (InText q x) (flat_map (escape_char q) y) = Some ([], InText q (x ++ y)).
Proof.
  intros Q. revert x. induction y as [|c y IH]; intros x; cbn [flat_map].
  - now rewrite app_nil_r.
  - rewrite run_app, run_char, IH by exact Q. now rewrite <- app_assoc.
Qed.
Lemma repr_quote_cases x : repr_quote x = "039"%char \/ repr_quote x = "034"%char.
Proof. unfold repr_quote. destruct (_ && _); [now right|now left]. Qed.
Lemma run_repr x : run Between (repr_str x) = Some ([KText x], Between).
Proof.
  unfold repr_str. cbv zeta. pose proof (repr_quote_cases x) as Q. set (q := repr_quote x) in *. cbn [run].
  assert (S1 : step Between q = Some ([], InText q [])) by (now destruct Q as [-> | ->]).
  rewrite S1, run_app, run_chars by exact Q. cbn [run app step].
  now rewrite Ascii.eqb_refl.
Qed.
Lemma word_char_plain c : word_char c = true -> is_quotation c = false /\ is_blank c = false /\ is_mark c = false.
Proof. destruct c as [[] [] [] [] [] [] [] []]; cbv; intros H; try discriminate H; auto. Qed.
Lemma mark_plain c : is_mark c = true -> word_char c = false /\ is_blank c = false /\ is_quotation c = false.
Proof. destruct c as [[] [] [] [] [] [] [] []]; cbv; intros H; try discriminate H; auto. Qed.
Lemma blank_plain c : is_blank c = true -> word_char c = false /\ is_mark c = false /\ is_quotation c = false.
Proof. destruct c as [[] [] [] [] [] [] [] []]; cbv; intros H; try discriminate H; auto. Qed.
Lemma run_in_word w x : forallb word_char x = true -> run (InWord w) x = Some ([], InWord (w ++ x)).
Proof.
  revert w. induction x as [|c x IH]; intros w H; cbn [run]; [now rewrite app_nil_r|].
  cbn [forallb] in H. apply andb_true_iff in H as [Hc Hx]. cbn [step]. rewrite Hc, (IH _ Hx).
  now rewrite <- app_assoc.
Qed.
Lemma run_word w : written_word w -> run Between w = Some ([], InWord w).
Proof.
  intros [NE H]. destruct w as [|c x]; [easy|]. cbn [forallb] in H. apply andb_true_iff in H as [Hc Hx].
  destruct (word_char_plain c Hc) as (Q & B & M). cbn [run step]. rewrite Q, B, M, Hc, run_in_word by exact Hx. reflexivity.
Qed.
Lemma run_word_mark w c : written_word w -> is_mark c = true -> run Between (w ++ [c]) = Some ([KWord w; KMark c], Between).
Proof.
  intros H M. rewrite run_app, run_word by exact H. destruct (mark_plain c M) as (W & B & _). cbn [run step]. now rewrite W, B, M.
Qed.
Lemma run_blanks x : forallb is_blank x = true -> run Between x = Some ([], Between).
Proof.
  induction x as [|c x IH]; intros H; cbn [run]; [reflexivity|]. cbn [forallb] in H. apply andb_true_iff in H as [Hc Hx].
  destruct (blank_plain c Hc) as (W & M & Q). cbn [step]. rewrite Q, Hc, (IH Hx). reflexivity.
Qed.
Lemma pad_blank n : forallb is_blank (pad n) = true.
Proof. unfold pad. induction n; cbn; auto. Qed.
(** two texts that each bring the reader back between tokens *)
Lemma run_cat a b t u : run Between a = Some (t, Between) -> run Between b = Some (u, Between) -> run Between (a ++ b) = Some (t ++ u, Between).
Proof. intros A B. now rewrite run_app, A, B. Qed.

(** ** values *)
(** what stands for a value under a key: the type stands without quotation marks *)
Definition literal_of (key : str) (v : value) : literal :=
  match v with
  | VText x => if str_eqb key (s "type") then LWord x else LText x
  | VType t => LWord (ptype_name t)
  | VNumber w => LWord w
  | VNone => LWord (s "None")
  | VTexts l => LTexts l
  end.
(** values that can be written: a type by its name, numbers as words *)
Definition writable (kv : str * value) : Prop :=
  match snd kv with
  | VText x => fst kv = s "type" -> written_word x
  | VType _ => False
  | VNumber w => written_word w
  | VNone | VTexts _ => True
  end.
Lemma run_texts l : run Between (join (s ", ") (map repr_str l)) = Some (listed l, Between).
Proof.
  induction l as [|x l IH]; [reflexivity|]. destruct l as [|y l]; [exact (run_repr x)|].
  change (run Between (repr_str x ++ s ", " ++ join (s ", ") (map repr_str (y :: l))) = Some ([KText x] ++ ([mark ","] ++ listed (y :: l)), Between)).
  apply run_cat; [apply run_repr|]. apply run_cat; [reflexivity|exact IH].
Qed.
Lemma run_attribute n kv : writable kv ->
  run Between (attribute_text n kv) = Some (attribute_tokens (fst kv, literal_of (fst kv) (snd kv)), Between).
Proof.
  intros W. unfold attribute_text, attribute_tokens. cbn [fst snd].
  pose proof (run_blanks _ (pad_blank n)) as P.
  change (KText (fst kv) :: mark ":" :: literal_tokens (literal_of (fst kv) (snd kv)) ++ [mark ","])
    with ([] ++ ([] ++ ([KText (fst kv)] ++ ([mark ":"] ++ (literal_tokens (literal_of (fst kv) (snd kv)) ++ [mark ","]))))).
  apply run_cat; [exact P|]. apply run_cat; [exact P|]. apply run_cat; [apply run_repr|]. apply run_cat; [reflexivity|].
  destruct kv as [k v]. cbn [fst snd]. unfold writable in W. cbn [fst snd] in W.
  destruct v as [x|t|w| |l]; cbn [literal_of str_value repr_value].
  - destruct (str_eqb k (s "type")) eqn:E.
    + apply str_eqb_eq in E. apply run_word_mark; [auto|reflexivity].
    + apply run_cat; [apply run_repr|reflexivity].
  - easy.
  - destruct (str_eqb k (s "type")); apply run_word_mark; auto.
  - destruct (str_eqb k (s "type")); reflexivity.
  - destruct (str_eqb k (s "type")); (apply run_cat; [|reflexivity]);
    cbn [literal_tokens]; (change (mark "[" :: listed l ++ [mark "]"]) with ([mark "["] ++ (listed l ++ [mark "]"])); apply run_cat; [reflexivity|]; apply run_cat; [apply run_texts|reflexivity]).
Qed.
Lemma run_lines {A} (f : A -> str) (g : A -> list token) l : (forall x, In x l -> run Between (f x) = Some (g x, Between)) ->
  run Between (join [newline] (map f l)) = Some (flat_map g l, Between).
Proof.
  induction l as [|x l IH]; intros H; [reflexivity|]. destruct l as [|y l].
  - cbn. rewrite app_nil_r. apply H. now left.
  - change (run Between (f x ++ [newline] ++ join [newline] (map f (y :: l))) = Some (g x ++ ([] ++ flat_map g (y :: l)), Between)).
    apply run_cat; [apply H; now left|]. apply run_cat; [reflexivity|]. apply IH. intros z I. apply H. now right.
Qed.
Definition literals (m : list (str * value)) : list (str * literal) := map (fun kv => (fst kv, literal_of (fst kv) (snd kv))) m.
Lemma run_entry n km : Forall writable (snd km) ->
  run Between (entry_text n (fst km, CMap (snd km)) ++ s ",") = Some (entry_tokens (fst km, literals (snd km)), Between).
Proof.
  intros W. unfold entry_text, entry_tokens. cbn [fst snd current_text].
  pose proof (run_blanks _ (pad_blank n)) as P. rewrite <- !app_assoc.
  change (KText (fst km) :: mark ":" :: mark "{" :: flat_map attribute_tokens (literals (snd km)) ++ [mark "}"; mark ","])
    with ([] ++ ([KText (fst km)] ++ ([mark ":"; mark "{"] ++ ([] ++ (flat_map attribute_tokens (literals (snd km)) ++ ([] ++ ([] ++ [mark "}"; mark ","]))))))).
  apply run_cat; [exact P|]. apply run_cat; [apply run_repr|]. apply run_cat; [reflexivity|]. apply run_cat; [reflexivity|].
  apply run_cat.
  - unfold literals. rewrite flat_map_concat_map, map_map, <- flat_map_concat_map.
    apply run_lines. intros kv I. apply run_attribute. rewrite Forall_forall in W. now apply W.
  - apply run_cat; [reflexivity|]. apply run_cat; [exact P|]. reflexivity.
Qed.
Lemma reads title n d : written_word title -> Forall (fun km => Forall writable (snd km)) d ->
  assigns (titled title (tostring n (as_maps d))) title (map (fun km => (fst km, literals (snd km))) d).
Proof.
  intros T W. unfold assigns, tokens, titled, tostring, tolines, as_maps. rewrite !map_map. cbn [fst snd].
  assert (H : run Between (title ++ s " = {") = Some ([KWord title; mark "="; mark "{"], Between))
    by (rewrite run_app, (run_word _ T); reflexivity).
  replace (title ++ s " = {" ++ [newline] ++ join [newline] (map (fun x => entry_text n (fst x, CMap (snd x)) ++ s ",") d) ++ [newline] ++ s "}")
    with ((title ++ s " = {") ++ ([newline] ++ (join [newline] (map (fun x => entry_text n (fst x, CMap (snd x)) ++ s ",") d) ++ ([newline] ++ s "}"))))
    by (rewrite <- !app_assoc; reflexivity).
  rewrite (run_cat _ _ [KWord title; mark "="; mark "{"] ([] ++ (flat_map entry_tokens (map (fun km => (fst km, literals (snd km))) d) ++ ([] ++ [mark "}"])))); [reflexivity|exact H|].
  apply run_cat; [reflexivity|]. apply run_cat.
  - rewrite flat_map_concat_map, map_map, <- flat_map_concat_map. apply run_lines. intros km I. apply run_entry.
    rewrite Forall_forall in W. now apply W.
  - apply run_cat; reflexivity.
Qed.

(** ** a text assigns at most one dictionary *)
Lemma listed_inj l1 l2 r1 r2 : listed l1 ++ mark "]" :: r1 = listed l2 ++ mark "]" :: r2 -> l1 = l2 /\ r1 = r2.
Proof.
  revert l2. induction l1 as [|x l1 IH]; intros [|y l2] E.
  - injection E. auto.
  - destruct l2; discriminate E.
  - destruct l1; discriminate E.
  - destruct l1 as [|x1 l1], l2 as [|y1 l2].
    + injection E. intros; subst; auto.
    + discriminate E.
    + discriminate E.
    + change (KText x :: mark "," :: (listed (x1 :: l1) ++ mark "]" :: r1) = KText y :: mark "," :: (listed (y1 :: l2) ++ mark "]" :: r2)) in E.
      injection E as E1 E2. change (listed (x1 :: l1) ++ mark "]" :: r1 = listed (y1 :: l2) ++ mark "]" :: r2) in E2. apply IH in E2 as [E2 E3]. injection E2 as -> ->. now subst.
Qed.
Lemma literal_inj v1 v2 r1 r2 : literal_tokens v1 ++ mark "," :: r1 = literal_tokens v2 ++ mark "," :: r2 -> v1 = v2 /\ r1 = r2.
Proof.
  destruct v1 as [x|w|l], v2 as [y|u|m]; cbn [literal_tokens app]; intros E; try discriminate E.
  - injection E. intros; subst; auto.
  - injection E. intros; subst; auto.
  - injection E as E. rewrite <- !app_assoc in E. cbn [app] in E. apply listed_inj in E as [-> E]. injection E. intros; subst; auto.
Qed.
Lemma attributes_inj m1 m2 r1 r2 : flat_map attribute_tokens m1 ++ mark "}" :: r1 = flat_map attribute_tokens m2 ++ mark "}" :: r2 -> m1 = m2 /\ r1 = r2.
Proof.
  revert m2. induction m1 as [|[k v] m1 IH]; intros [|[k2 v2] m2] E; cbn [flat_map attribute_tokens app fst snd] in E.
  - injection E. auto.
  - discriminate E.
  - discriminate E.
  - injection E as Ek E. rewrite <- !app_assoc in E. cbn [app] in E. apply literal_inj in E as [-> E].
    apply IH in E as [-> ->]. now subst.
Qed.
Lemma entries_inj d1 d2 r1 r2 : flat_map entry_tokens d1 ++ mark "}" :: r1 = flat_map entry_tokens d2 ++ mark "}" :: r2 -> d1 = d2 /\ r1 = r2.
Proof.
  revert d2. induction d1 as [|[k m] d1 IH]; intros [|[k2 m2] d2] E; cbn [flat_map entry_tokens app fst snd] in E.
  - injection E. auto.
  - discriminate E.
  - discriminate E.
  - injection E as Ek E. rewrite <- !app_assoc in E. cbn [app] in E. apply attributes_inj in E as [-> E]. injection E as E.
    apply IH in E as [-> ->]. now subst.
Qed.
(** C97_distinct: a text is read as at most one assignment: two dictionaries
    that differ in a name, an attribute, a value or their order have different texts *)
Theorem C97_distinct text t1 t2 d1 d2 : assigns text t1 d1 -> assigns text t2 d2 -> t1 = t2 /\ d1 = d2.
Proof.
  unfold assigns. intros A B. rewrite A in B. injection B as -> E. apply entries_inj in E as [-> _]. auto.
Qed.
Print Assumptions C97_distinct.

(** ** which attributes are written *)
(** the own attributes of a parameter: its type, and texts *)
Definition described (own : list (str * attr)) : Prop :=
  NoDup (map fst own) /\ forall name a, In (name, a) own -> (name = s "type" <-> exists t, a = AType t).
(** the metadata of a parameter: texts, lists of texts and nothing, not its type *)
Definition documented (extra : list (str * value)) : Prop :=
  NoDup (map fst extra) /\ ~ In (s "type") (map fst extra) /\
  forall name v, In (name, v) extra -> v = VNone \/ (exists x, v = VText x) \/ (exists l, v = VTexts l).
(** the metadata of a constant tell its type, too *)
Definition documented_constant (extra : list (str * value)) : Prop :=
  NoDup (map fst extra) /\ ~ In (s "value") (map fst extra) /\
  forall name v, In (name, v) extra -> if str_eqb name (s "type") then exists t, v = VType t else v = VNone \/ (exists x, v = VText x) \/ (exists l, v = VTexts l).
Definition metadata_names (meta : list (str * list (str * value))) (key : str) (extra : list (str * value)) : Prop :=
  In (key, extra) meta \/ ((forall e, ~ In (key, e) meta) /\ extra = []).
(** how a value is written *)
Definition written_as (v : value) (l : literal) : Prop :=
  match v with
  | VText x => l = LText x | VType t => l = LWord (ptype_name t) | VNumber w => l = LWord w
  | VNone => l = LWord (s "None") | VTexts x => l = LTexts x
  end.
Definition own_as (a : attr) (l : literal) : Prop :=
  match a with AText x => l = LText x | AType t => l = LWord (ptype_name t) end.
Definition in_order (sort : bool) (given written : list str) : Prop :=
  if sort then StronglySorted (fun a b => str_ltb a b = true) written /\ forall k, In k written <-> In k given else written = given.

Lemma named_type_inv kv kv' : named_type kv = Ok kv' -> fst kv' = fst kv /\
  ((fst kv = s "type" /\ exists t, snd kv = VType t /\ snd kv' = VText (ptype_name t)) \/ (fst kv <> s "type" /\ snd kv' = snd kv)).
Proof.
  unfold named_type. destruct (str_eqb (fst kv) (s "type")) eqn:E.
  - apply str_eqb_eq in E. destruct kv as [k v]. cbn [fst snd] in *. destruct v; intros H; try discriminate H. injection H as <-. split; [reflexivity|].
    left. split; [exact E|]. eauto.
  - intros H. injection H as <-. split; [reflexivity|]. right. split; [|reflexivity]. intros X. rewrite X in E. now rewrite str_eqb_refl in E.
Qed.
Lemma named_type_total l : (forall name v, In (name, v) l -> name = s "type" -> exists t, v = VType t) -> exists r, mapM named_type l = Ok r.
Proof.
  induction l as [|[k v] l IH]; intros H; [now exists []|]. cbn [mapM].
  assert (A : exists y, named_type (k, v) = Ok y).
  { unfold named_type. cbn [fst snd]. destruct (str_eqb k (s "type")) eqn:E; [|eauto]. apply str_eqb_eq in E.
    destruct (H k v (or_introl eq_refl) E) as (t & ->). eauto. }
  destruct A as (y & ->). destruct IH as (r & ->); [intros n w I; apply H; now right|]. cbn. eauto.
Qed.
Lemma named_all l r : mapM named_type l = Ok r -> map fst r = map fst l /\
  forall name w, In (name, w) r <-> exists v, In (name, v) l /\ named_type (name, v) = Ok (name, w).
Proof.
  intros H. apply mapM_iff in H. induction H as [|[k v] [k' v'] l r E F (IK & IH)].
  - split; [reflexivity|]. intros name w. split; [intros []|intros (v & [] & _)].
  - pose proof (named_type_inv _ _ E) as (K & _). cbn [fst snd] in K. subst k'. split; [cbn; now f_equal|].
    intros name w. split.
    + intros [X|X]; [injection X as <- <-; exists v; split; [now left|exact E]|]. apply IH in X as (u & I & N). exists u. split; [now right|exact N].
    + intros (u & [X|X] & N); [injection X as <- <-; rewrite E in N; injection N as <-; now left|]. right. apply IH. eauto.
Qed.
Lemma metadata_found meta key extra : NoDup (map fst meta) -> metadata_names meta key extra -> metadata_of meta key = extra.
Proof.
  intros ND [I|(N & ->)]; unfold metadata_of.
  - apply (lookup_in str_eqb str_decides _ _ _ ND) in I. now rewrite I.
  - destruct (lookup str_eqb meta key) as [e|] eqn:E; [|reflexivity]. apply (lookup_in str_eqb str_decides _ _ _ ND) in E. now apply N in E.
Qed.
Lemma metadata_exists meta key : NoDup (map fst meta) -> metadata_names meta key (metadata_of meta key).
Proof.
  intros ND. unfold metadata_of, metadata_names. destruct (lookup str_eqb meta key) as [e|] eqn:E.
  - left. now apply (lookup_in str_eqb str_decides).
  - right. split; [|reflexivity]. intros x I. apply (lookup_in str_eqb str_decides _ _ _ ND) in I. congruence.
Qed.
Lemma update_in {V} (u d : list (str * V)) name v : NoDup (map fst u) -> NoDup (map fst d) ->
  In (name, v) (update d u) <-> In (name, v) u \/ (~ In name (map fst u) /\ In (name, v) d).
Proof.
  intros NU ND. rewrite <- (lookup_in str_eqb str_decides (update d u) name v (update_nodup u d ND)), update_get by exact NU.
  destruct (lookup str_eqb u name) as [w|e] eqn:E.
  - pose proof (proj1 (lookup_in str_eqb str_decides _ _ _ NU) E) as I. split.
    + intros H. injection H as <-. now left.
    + intros [J|(N & _)]; [|exfalso; apply N; exact (in_map fst _ _ I)]. apply (lookup_in str_eqb str_decides _ _ _ NU) in J. congruence.
  - assert (N : ~ In name (map fst u)).
    { intros I. apply in_map_iff in I as ([k x] & K & I). cbn in K. subst k. apply (lookup_in str_eqb str_decides _ _ _ NU) in I. congruence. }
    rewrite (lookup_in str_eqb str_decides _ _ _ ND). split; [auto|]. intros [J|(_ & J)]; [|exact J]. exfalso. apply N. exact (in_map fst _ _ J).
Qed.
Lemma type_words t : written_word (ptype_name t).
Proof. destruct t; split; now vm_compute. Qed.
Lemma titles : written_word (s "CONFIGURATION_C") /\ written_word (s "BASETYPES_H").
Proof. split; split; now vm_compute. Qed.
Lemma literals_in m name l : In (name, l) (literals m) <-> exists v, In (name, v) m /\ l = literal_of name v.
Proof.
  unfold literals. rewrite in_map_iff. split.
  - intros ([k v] & E & I). cbn in E. injection E as -> <-. eauto.
  - intros (v & I & ->). exists (name, v). auto.
Qed.
Lemma literals_keys m : map fst (literals m) = map fst m.
Proof. unfold literals. rewrite map_map. reflexivity. Qed.

Lemma literal_plain name v : name <> s "type" \/ (forall x, v <> VText x) -> written_as v (literal_of name v).
Proof.
  intros H. destruct v as [x|t|x| |x]; try reflexivity. unfold literal_of, written_as. destruct (str_eqb name (s "type")) eqn:Q; [|reflexivity].
  apply str_eqb_eq in Q. destruct H as [H|H]; [contradiction|now destruct (H x)].
Qed.
Lemma written_unique v l1 l2 : written_as v l1 -> written_as v l2 -> l1 = l2.
Proof. destruct v; cbn; congruence. Qed.

(** ** the dictionary of all keys *)
Lemma ordered_keys sort keys : NoDup keys -> in_order sort keys (if sort then sort_by str_ltb keys else keys).
Proof. intros ND. unfold in_order. destruct sort; [|reflexivity]. split; [now apply sort_str_sorted|]. intros k. apply sort_by_in. Qed.
Lemma todict_as_total {W} keys (get : str -> result W) sort : (forall k, In k keys -> exists w, get k = Ok w) ->
  exists d, todict_as keys get sort = Ok d.
Proof.
  intros H. unfold todict_as.
  assert (G : forall l, incl l keys -> exists d, mapM (fun k => v <- get k ;; Ok (k, v)) l = Ok d).
  { induction l as [|k l IH]; intros I; [now exists []|]. cbn [mapM]. destruct (H k (I k (or_introl eq_refl))) as (w & ->). cbn [bind].
    destruct IH as (d & ->); [intros x J; apply I; now right|]. cbn. eauto. }
  apply G. destruct sort; [intros k I; now apply sort_by_in in I|apply incl_refl].
Qed.
Lemma todict_as_inv {W} keys (get : str -> result W) sort d : todict_as keys get sort = Ok d ->
  map fst d = (if sort then sort_by str_ltb keys else keys) /\ forall k v, In (k, v) d -> In k keys /\ get k = Ok v.
Proof.
  unfold todict_as. intros H.
  assert (G : forall l d, mapM (fun k => v <- get k ;; Ok (k, v)) l = Ok d -> map fst d = l /\ forall k v, In (k, v) d -> In k l /\ get k = Ok v).
  { clear. intros l d H. apply mapM_iff in H. induction H as [|k [k' v'] l d E F (IK & IH)]; [split; [reflexivity|intros ? ? []]|].
    destruct (get k) as [v|] eqn:G; cbn [bind] in E; [|discriminate]. injection E as <- <-. split; [cbn; now f_equal|].
    intros x w [X|X]; [injection X as <- <-; split; [now left|exact G]|]. destruct (IH x w X). split; [now right|assumption]. }
  destruct (G _ _ H) as (K & I). split; [exact K|]. intros k v J. destruct (I k v J) as (A & B). split; [|exact B].
  destruct sort; [now apply sort_by_in in A|exact A].
Qed.

(** ** parameters *)
Lemma full_parameter_ok meta defs key own : NoDup (map fst defs) -> NoDup (map fst meta) -> In (key, own) defs -> described own ->
  documented (metadata_of meta key) -> exists m, full_parameter meta defs key = Ok m /\ Forall writable m /\ NoDup (map fst m) /\
    forall name l, In (name, l) (literals m) <->
      (exists v, In (name, v) (metadata_of meta key) /\ written_as v l) \/
      (~ In name (map fst (metadata_of meta key)) /\ exists a, In (name, a) own /\ own_as a l).
Proof.
  intros ND NM I (NO & DO) (NE & NT & DE). unfold full_parameter.
  rewrite (proj2 (lookup_in str_eqb str_decides _ _ _ ND) I). set (extra := metadata_of meta key) in *.
  set (mine := map (fun kv => (fst kv, value_of (snd kv))) own).
  change (put_all extra mine) with (update mine extra).
  assert (KM : map fst mine = map fst own) by (unfold mine; rewrite map_map; reflexivity).
  assert (NMi : NoDup (map fst mine)) by now rewrite KM.
  assert (MI : forall name v, In (name, v) mine <-> exists a, In (name, a) own /\ v = value_of a).
  { intros name v. unfold mine. rewrite in_map_iff. split; [intros ([k a] & E & J); cbn in E; injection E as -> <-; eauto|intros (a & J & ->); exists (name, a); auto]. }
  pose proof (fun name v => update_in extra mine name v NE NMi) as UI.
  assert (TY : forall name v, In (name, v) (update mine extra) -> name = s "type" <-> exists t, v = VType t).
  { intros name v J. apply UI in J as [J|(N & J)].
    - split; [intros ->; exfalso; apply NT; exact (in_map fst _ _ J)|]. intros (t & ->). destruct (DE _ _ J) as [E|[(x & E)|(x & E)]]; discriminate E.
    - apply MI in J as (a & J & ->). rewrite (DO _ _ J). split; [intros (t & ->); cbn; eauto|]. intros (t & E). destruct a; [discriminate E|eauto]. }
  destruct (named_type_total (update mine extra)) as (m & E); [intros name v J Tn; apply (TY _ _ J), Tn|].
  exists m. split; [exact E|]. destruct (named_all _ _ E) as (K & IN).
  assert (NI : forall name w, In (name, w) m <-> exists v, In (name, v) (update mine extra) /\
      match v with VType t => name = s "type" /\ w = VText (ptype_name t) | _ => name <> s "type" /\ w = v end).
  { intros name w. rewrite IN. split; intros (v & J & N); exists v; (split; [exact J|]).
    - apply named_type_inv in N as (_ & [(T & t & V & W)|(T & W)]); cbn [fst snd] in *; subst.
      + auto.
      + pose proof (TY _ _ J) as TT. destruct v; auto. exfalso. apply T, TT. eauto.
    - pose proof (TY _ _ J) as TT. unfold named_type. cbn [fst snd]. destruct v as [x|t|x| |x]; destruct N as (N & ->);
      try (destruct (str_eqb name (s "type")) eqn:Q; [apply str_eqb_eq in Q; contradiction|reflexivity]).
      subst name. reflexivity. }
  split; [|split].
  - apply Forall_forall. intros [name w] J. apply NI in J as (v & J & N). unfold writable. cbn [fst snd].
    assert (NN : forall x, v <> VNumber x).
    { intros x ->. apply UI in J as [J|(_ & J)]; [destruct (DE _ _ J) as [Q|[(y & Q)|(y & Q)]]; discriminate Q|]. apply MI in J as ([]& _ & Q); discriminate Q. }
    destruct v as [x|t|x| |x]; destruct N as (N & ->); auto; try (intros; contradiction).
    + intros _. apply type_words.
    + now destruct (NN x).
  - rewrite K. now apply update_nodup.
  - intros name l. rewrite literals_in. split.
    + intros (w & J & ->). apply NI in J as (v & J & N). apply UI in J as [J|(NJ & J)].
      * left. exists v. split; [exact J|].
        assert (name <> s "type") as NT2 by (intros ->; apply NT; exact (in_map fst _ _ J)).
        destruct (DE _ _ J) as [->|[(x & ->)|(x & ->)]]; destruct N as (N & ->); apply literal_plain; auto.
      * right. split; [exact NJ|]. apply MI in J as (a & J & ->). exists a. split; [exact J|]. destruct a as [x|t]; cbn [value_of] in N; destruct N as (N & ->).
        -- exact (literal_plain name (VText x) (or_introl N)).
        -- rewrite N. reflexivity.
    + intros [(v & J & W)|(NJ & a & J & W)].
      * assert (name <> s "type") as NT2 by (intros ->; apply NT; exact (in_map fst _ _ J)).
        exists v. split; [|exact (written_unique _ _ _ W (literal_plain name v (or_introl NT2)))].
        apply NI. exists v. split; [apply UI; now left|]. destruct (DE _ _ J) as [->|[(x & ->)|(x & ->)]]; auto.
      * destruct a as [x|t]; cbn [own_as] in W; subst l.
        -- assert (name <> s "type") as NT2 by (intros T; apply (DO _ _ J) in T as (t & T); discriminate T).
           exists (VText x). split; [|exact (written_unique (VText x) _ _ eq_refl (literal_plain name _ (or_introl NT2)))].
           apply NI. exists (VText x). split; [apply UI; right; split; [exact NJ|]; apply MI; exists (AText x); auto|auto].
        -- assert (name = s "type") as -> by (apply (DO _ _ J); eauto).
           exists (VText (ptype_name t)). split; [|reflexivity]. apply NI. exists (VType t). split; [apply UI; right; split; [exact NJ|]; apply MI; exists (AType t); auto|auto].
Qed.
(** C97_parameters: the full text of the parameters of a C file is an assignment
    to CONFIGURATION_C of one dictionary per parameter, in the order of the file
    or sorted; each attribute is the one of the metadata if it is there, and
    otherwise that of the file, and the type stands without quotation marks *)
Theorem C97_parameters meta defs indent sort : NoDup (map fst defs) -> NoDup (map fst meta) ->
  (forall key own, In (key, own) defs -> described own) -> (forall key extra, In (key, extra) meta -> documented extra) ->
  exists text d, parameters_text meta defs indent sort = Ok text /\ assigns text (s "CONFIGURATION_C") d /\
    in_order sort (map fst defs) (map fst d) /\
    forall key attributes, In (key, attributes) d -> NoDup (map fst attributes) /\
      exists own extra, In (key, own) defs /\ metadata_names meta key extra /\
      forall name l, In (name, l) attributes <->
        (exists v, In (name, v) extra /\ written_as v l) \/ (~ In name (map fst extra) /\ exists a, In (name, a) own /\ own_as a l).
Proof.
  intros ND NM D M.
  assert (DM : forall key, documented (metadata_of meta key)).
  { intros key. destruct (metadata_exists meta key NM) as [I|(_ & ->)]; [exact (M _ _ I)|]. split; [constructor|]. split; [intros []|intros ? ? []]. }
  assert (FP : forall key, In key (map fst defs) -> exists own, In (key, own) defs /\ exists m, full_parameter meta defs key = Ok m /\ Forall writable m /\ NoDup (map fst m) /\
    forall name l, In (name, l) (literals m) <->
      (exists v, In (name, v) (metadata_of meta key) /\ written_as v l) \/
      (~ In name (map fst (metadata_of meta key)) /\ exists a, In (name, a) own /\ own_as a l)).
  { intros key I. apply in_map_iff in I as ([k own] & E & I). cbn in E. subst k. exists own. split; [exact I|]. apply full_parameter_ok; auto. now apply (D key). }
  destruct (todict_as_total (map fst defs) (full_parameter meta defs) sort) as (d & E); [intros k I; destruct (FP k I) as (own & _ & m & F & _); eauto|].
  destruct (todict_as_inv _ _ _ _ E) as (K & IN).
  exists (titled (s "CONFIGURATION_C") (tostring indent (as_maps d))), (map (fun km => (fst km, literals (snd km))) d).
  split; [unfold parameters_text; rewrite E; reflexivity|]. split; [|split].
  - apply reads; [exact (proj1 titles)|]. apply Forall_forall. intros [k m] I. destruct (IN k m I) as (IK & F). destruct (FP k IK) as (own & _ & m' & F' & W & _).
    cbn [snd]. congruence.
  - replace (map fst (map (fun km => (fst km, literals (snd km))) d)) with (map fst d) by (rewrite map_map; reflexivity). rewrite K. apply ordered_keys, ND.
  - intros key attributes I. apply in_map_iff in I as ([k m] & X & I). cbn in X. injection X as -> <-. destruct (IN key m I) as (IK & F).
    destruct (FP key IK) as (own & IO & m' & F' & _ & N' & S'). rewrite F in F'. injection F' as <-. split; [now rewrite literals_keys|].
    exists own, (metadata_of meta key). split; [exact IO|]. split; [now apply metadata_exists|exact S'].
Qed.
Print Assumptions C97_parameters.

(** C97_loaded: what is loaded from a file or from the package, once it is
    standardized, meets the hypotheses of C97_parameters *)
Theorem C97_loaded m defs : NoDup (map fst m) -> loadable m -> standardize m = Ok defs ->
  NoDup (map fst defs) /\ forall key own, In (key, own) defs -> described own /\ In (s "type") (map fst own).
Proof.
  intros ND L H. destruct (C77_definitions m L ND) as (defs' & H' & K & _). rewrite H in H'. injection H' as <-.
  split; [rewrite K; exact ND|]. intros key own I. unfold standardize, replace_attr in H. apply mapM_iff in H.
  assert (F : exists ka, In ka (texts m) /\ (x <- lookup str_eqb (snd ka) (s "mode") ;; y <- type_of_mode x ;;
     Ok (fst ka, fold_left (fun d kv => dict_put str_eqb d (fst kv) (snd kv)) (filter (fun kv => negb (str_eqb (fst kv) (s "mode"))) (snd ka)) [(s "type", y)])) = Ok (key, own)).
  { clear -H I. induction H as [|ka r l l' E F IH]; [destruct I|]. destruct I as [->|I]; [exists ka; split; [now left|exact E]|].
    destruct (IH I) as (kb & J & G). exists kb. split; [now right|exact G]. }
  clear H. destruct F as ([k a] & J & E). unfold texts in J. apply in_map_iff in J as ([k' b] & X & J). cbn in X. injection X as -> <-.
  destruct (L k b J) as (NB & NT & _). cbn [fst snd] in E. set (tb := map (fun kv => (fst kv, AText (snd kv))) b) in E.
  destruct (lookup str_eqb tb (s "mode")) as [x|]; cbn [bind] in E; [|discriminate E]. destruct (type_of_mode x) as [y|] eqn:TY; cbn [bind] in E; [|discriminate E].
  injection E as -> <-. set (fb := filter (fun kv => negb (str_eqb (fst kv) (s "mode"))) tb).
  change (fold_left (fun d kv => dict_put str_eqb d (fst kv) (snd kv)) fb [(s "type", y)]) with (update [(s "type", y)] fb).
  assert (KT : map fst tb = map fst b) by (unfold tb; rewrite map_map; reflexivity).
  assert (NF : NoDup (map fst fb)).
  { unfold fb. assert (NT2 : NoDup (map fst tb)) by (rewrite KT; exact NB). clear -NT2. induction tb as [|[h v] l IH]; [constructor|]. cbn [map fst] in NT2. inversion NT2 as [|? ? N1 N2]; subst.
    cbn [filter fst]. destruct (negb (str_eqb h (s "mode"))); [|now apply IH]. cbn [map fst]. constructor; [|now apply IH]. intros X. apply N1.
    apply in_map_iff in X as ([h2 w] & E & X). cbn in E. subst h2. apply filter_In in X as (X & _). exact (in_map fst _ _ X). }
  assert (N1 : NoDup (map fst [(s "type", y)])) by (constructor; [intros []|constructor]).
  assert (FT : forall name v, In (name, v) fb -> name <> s "type" /\ exists x, v = AText x).
  { intros name v X. unfold fb in X. apply filter_In in X as (X & _). split; [intros ->; apply NT; rewrite <- KT; exact (in_map fst _ _ X)|].
    unfold tb in X. apply in_map_iff in X as ([n w] & E & _). injection E as _ <-. eauto. }
  assert (YT : exists t, y = AType t).
  { clear -TY. unfold type_of_mode in TY. destruct x as [z|t]; [|discriminate TY]. repeat (destruct (str_eqb z _); [injection TY as <-; eauto|]). discriminate TY. }
  split; [split|].
  - now apply update_nodup.
  - intros name v X. apply update_in in X as [X|(_ & [X|[]])]; try assumption.
    + destruct (FT _ _ X) as (A & z & ->). split; [intros; contradiction|intros (t & B); discriminate B].
    + injection X as <- <-. split; auto.
  - apply update_keys. left. now left.
Qed.
Print Assumptions C97_loaded.

(** ** constants *)
Section ConstantsText.
Variable libm : Qc -> Qc -> option Qc.
Variable number_text : bool -> Qc -> str.
Variable consts : list (str * str).
Variable ctypes : list (str * bool).
Variable meta : list (str * list (str * value)).
Hypothesis numbers_are_words : forall b q, written_word (number_text b q).
Hypothesis NC : NoDup (map fst consts).
Let constant_value := constant_value libm number_text consts ctypes.
Let full_constant := full_constant libm number_text consts ctypes meta.
Let constants_text := constants_text libm number_text consts ctypes meta.
Let constants_default_text := constants_default_text libm number_text consts ctypes.

(** the constant has this value, of this type *)
Definition computed (fuel : nat) (key : str) (isint : bool) (q : Qc) : Prop :=
  bt_compute libm consts ctypes fuel key = Ok q /\ lookup str_eqb ctypes key = Ok isint.
Lemma constant_value_ok fuel key isint q : In key (map fst consts) -> computed fuel key isint q ->
  constant_value fuel key = Ok (VNumber (number_text isint q)).
Proof.
  intros I (C & T). unfold constant_value, TextModel.constant_value. apply in_map_iff in I as ([k x] & E & I). cbn in E. subst k.
  apply (lookup_in str_eqb str_decides _ _ _ NC) in I. rewrite I, C. cbn [bind]. rewrite T. reflexivity.
Qed.
Lemma full_constant_ok fuel key isint q extra : In key (map fst consts) -> computed fuel key isint q ->
  metadata_of meta key = extra -> documented_constant extra ->
  exists m, full_constant fuel key = Ok m /\ Forall writable m /\ NoDup (map fst m) /\
    forall name l, In (name, l) (literals m) <->
      (name = s "value" /\ l = LWord (number_text isint q)) \/ (exists v, In (name, v) extra /\ written_as v l).
Proof.
  intros I C M (NE & NV & DE). unfold full_constant, TextModel.full_constant. fold constant_value.
  rewrite (constant_value_ok fuel key isint q I C). cbn [bind]. rewrite M.
  destruct (named_type_total extra) as (r & E).
  { intros name v J ->. pose proof (DE _ _ J) as D. now rewrite str_eqb_refl in D. }
  rewrite E. cbn [bind]. destruct (named_all _ _ E) as (K & IN).
  change (put_all r [(s "value", VNumber (number_text isint q))]) with (update [(s "value", VNumber (number_text isint q))] r).
  exists (update [(s "value", VNumber (number_text isint q))] r). split; [reflexivity|].
  assert (NR : NoDup (map fst r)) by now rewrite K.
  assert (N1 : NoDup (map fst [(s "value", VNumber (number_text isint q))])) by (constructor; [intros []|constructor]).
  assert (NVr : ~ In (s "value") (map fst r)) by now rewrite K.
  assert (RI : forall name w, In (name, w) r <-> exists v, In (name, v) extra /\
      (match v with VType t => name = s "type" /\ w = VText (ptype_name t) | _ => name <> s "type" /\ w = v end)).
  { intros name w. rewrite IN. split; intros (v & J & N); exists v; (split; [exact J|]); pose proof (DE _ _ J) as D.
    - apply named_type_inv in N as (_ & [(T & t & V & W)|(T & W)]); cbn [fst snd] in *; subst.
      + auto.
      + rewrite (proj2 (str_eqb_neq _ _) T) in D. destruct D as [->|[(x & ->)|(x & ->)]]; auto.
    - unfold named_type. cbn [fst snd]. destruct v as [x|t|x| |x]; destruct N as (N & ->);
      try (rewrite (proj2 (str_eqb_neq _ _) N); reflexivity). subst name. reflexivity. }
  split; [|split].
  - apply Forall_forall. intros [name w] J. apply update_in in J as [J|(_ & J)]; try assumption.
    + apply RI in J as (v & J & N). pose proof (DE _ _ J) as D. unfold writable. cbn [fst snd].
      destruct v as [x|t|x| |x]; destruct N as (N & ->); auto; try (intros; contradiction); [intros _; apply type_words|].
      rewrite (proj2 (str_eqb_neq _ _) N) in D. destruct D as [D|[(y & D)|(y & D)]]; discriminate D.
    + destruct J as [J|[]]. injection J as <- <-. apply numbers_are_words.
  - apply update_nodup, N1.
  - intros name l. rewrite literals_in. split.
    + intros (w & J & ->). apply update_in in J as [J|(_ & J)]; try assumption.
      * right. apply RI in J as (v & J & N). exists v. split; [exact J|]. pose proof (DE _ _ J) as D.
        destruct v as [x|t|x| |x]; destruct N as (N & ->); try (apply literal_plain; auto). subst name. reflexivity.
      * left. destruct J as [J|[]]. injection J as <- <-. split; reflexivity.
    + intros [(-> & ->)|(v & J & W)].
      * exists (VNumber (number_text isint q)). split; [|reflexivity]. apply update_in; try assumption. right. split; [exact NVr|now left].
      * destruct (match v with VType _ => true | _ => false end) eqn:IT.
        -- destruct v as [|t| | |]; try discriminate IT. pose proof (DE _ _ J) as D. destruct (str_eqb name (s "type")) eqn:Q.
           ++ apply str_eqb_eq in Q. subst name. cbn in W. subst l. exists (VText (ptype_name t)). split; [|reflexivity].
              apply update_in; try assumption. left. apply RI. exists (VType t). auto.
           ++ destruct D as [D|[(y & D)|(y & D)]]; discriminate D.
        -- assert (name <> s "type") as NT.
           { intros ->. pose proof (DE _ _ J) as D. rewrite str_eqb_refl in D. destruct D as (t & ->). discriminate IT. }
           exists v. split; [|exact (written_unique _ _ _ W (literal_plain name v (or_introl NT)))].
           apply update_in; try assumption. left. apply RI. exists v. split; [exact J|]. destruct v; auto. discriminate IT.
Qed.
(** C97_constants: the same for the constants of a header; the value is that of
    the constant, and the metadata follow *)
Theorem C97_constants fuel indent sort : NoDup (map fst meta) ->
  (forall key extra, In (key, extra) meta -> documented_constant extra) ->
  (forall key, In key (map fst consts) -> exists isint q, computed fuel key isint q) ->
  exists text d, constants_text fuel indent sort = Ok text /\ assigns text (s "BASETYPES_H") d /\
    in_order sort (map fst consts) (map fst d) /\
    forall key attributes, In (key, attributes) d -> NoDup (map fst attributes) /\
      exists isint q extra, computed fuel key isint q /\ metadata_names meta key extra /\
      forall name l, In (name, l) attributes <->
        (name = s "value" /\ l = LWord (number_text isint q)) \/ (exists v, In (name, v) extra /\ written_as v l).
Proof.
  intros NM M CC.
  assert (DM : forall key, documented_constant (metadata_of meta key)).
  { intros key. destruct (metadata_exists meta key NM) as [I|(_ & ->)]; [exact (M _ _ I)|]. split; [constructor|]. split; [intros []|intros ? ? []]. }
  assert (FP : forall key, In key (map fst consts) -> exists isint q, computed fuel key isint q /\ exists m, full_constant fuel key = Ok m /\ Forall writable m /\ NoDup (map fst m) /\
    forall name l, In (name, l) (literals m) <->
      (name = s "value" /\ l = LWord (number_text isint q)) \/ (exists v, In (name, v) (metadata_of meta key) /\ written_as v l)).
  { intros key I. destruct (CC key I) as (b & q & C). exists b, q. split; [exact C|]. now apply full_constant_ok. }
  destruct (todict_as_total (map fst consts) (full_constant fuel) sort) as (d & E); [intros k I; destruct (FP k I) as (b & q & _ & m & F & _); eauto|].
  destruct (todict_as_inv _ _ _ _ E) as (K & IN).
  exists (titled (s "BASETYPES_H") (tostring indent (as_maps d))), (map (fun km => (fst km, literals (snd km))) d).
  split; [unfold constants_text, TextModel.constants_text; fold full_constant; rewrite E; reflexivity|]. split; [|split].
  - apply reads; [exact (proj2 titles)|]. apply Forall_forall. intros [k m] I. destruct (IN k m I) as (IK & F). destruct (FP k IK) as (b & q & _ & m' & F' & W & _).
    cbn [snd]. congruence.
  - replace (map fst (map (fun km => (fst km, literals (snd km))) d)) with (map fst d) by (rewrite map_map; reflexivity). rewrite K. apply ordered_keys, NC.
  - intros key attributes I. apply in_map_iff in I as ([k m] & X & I). cbn in X. injection X as -> <-. destruct (IN key m I) as (IK & F).
    destruct (FP key IK) as (b & q & C & m' & F' & _ & N' & S'). rewrite F in F'. injection F' as <-. split; [now rewrite literals_keys|].
    exists b, q, (metadata_of meta key). split; [exact C|]. split; [now apply metadata_exists|exact S'].
Qed.

(** Asked for one constant by name: its value, or nothing (no error) if the
    file does not define it. *)
Theorem C97_get fuel key :
  (forall isint q, In key (map fst consts) -> computed fuel key isint q -> constant_value fuel key = Ok (VNumber (number_text isint q))) /\
  (~ In key (map fst consts) -> constant_value fuel key = Ok VNone).
Proof using NC.
  split; [intros isint q; apply constant_value_ok|]. intros N. unfold constant_value, TextModel.constant_value.
  destruct (lookup str_eqb consts key) as [x|e] eqn:E; [|reflexivity]. exfalso. apply N.
  apply (lookup_in str_eqb str_decides _ _ _ NC) in E. exact (in_map fst _ _ E).
Qed.
(** C97_default_refuted: without a format the text of the constants is no
    dictionary of dictionaries: each value stands alone in its braces *)
Theorem C97_default_refuted fuel indent sort text : consts <> [] ->
  (forall key, In key (map fst consts) -> exists isint q, computed fuel key isint q) ->
  constants_default_text fuel indent sort = Ok text -> forall title d, ~ assigns text title d.
Proof.
  intros NE CC H title d A. unfold constants_default_text, TextModel.constants_default_text in H. fold constant_value in H.
  destruct (todict_as (map fst consts) (constant_value fuel) sort) as [r|] eqn:E; cbn [bind] in H; [|discriminate H]. injection H as <-.
  destruct (todict_as_inv _ _ _ _ E) as (K & IN). destruct r as [|[k v] r].
  { destruct sort; [|destruct consts; [now apply NE|discriminate K]]. destruct consts as [|[k x] l]; [now apply NE|].
    assert (I : In k (sort_by str_ltb (map fst ((k, x) :: l)))) by (apply sort_by_in; now left). rewrite <- K in I. destruct I. }
  destruct (IN k v (or_introl eq_refl)) as (I & V). destruct (CC k I) as (b & q & C). rewrite (constant_value_ok fuel k b q I C) in V. injection V as <-.
  unfold assigns, tokens, titled, tostring, tolines in A. rewrite !map_map in A. cbn [fst snd map] in A.
  set (w := number_text b q) in *.
  assert (R : exists rest, s "BASETYPES_H" ++ s " = {" ++ [newline] ++
      join [newline] ((entry_text indent (k, CValue (VNumber w)) ++ s ",") :: map (fun x => entry_text indent (fst x, CValue (snd x)) ++ s ",") r) ++ [newline] ++ s "}"
      = s "BASETYPES_H = {" ++ ([newline] ++ (pad indent ++ (repr_str k ++ (s ": {" ++ ([newline] ++ (w ++ ([newline] ++ rest)))))))).
  { unfold entry_text. cbn [fst snd current_text str_value repr_value].
    destruct (map (fun x => _) r) as [|y l]; cbn [join]; rewrite <- !app_assoc; eexists; reflexivity. }
  destruct R as (rest & R).
  match type of R with ?L = _ => match type of A with context [run Between ?X] => change X with L in A end end. rewrite R in A. clear R.
  pose proof (run_blanks _ (pad_blank indent)) as P.
  assert (W : run Between (w ++ [newline]) = Some ([KWord w], Between)) by (rewrite run_app, (run_word w (numbers_are_words b q)); reflexivity).
  assert (HEAD : run Between (s "BASETYPES_H = {" ++ ([newline] ++ (pad indent ++ (repr_str k ++ (s ": {" ++ ([newline] ++ (w ++ [newline])))))))
     = Some ([KWord (s "BASETYPES_H"); mark "="; mark "{"] ++ ([] ++ ([] ++ ([KText k] ++ ([mark ":"; mark "{"] ++ ([] ++ [KWord w]))))), Between)).
  { apply run_cat; [reflexivity|]. apply run_cat; [reflexivity|]. apply run_cat; [exact P|]. apply run_cat; [apply run_repr|]. apply run_cat; [reflexivity|].
    apply run_cat; [reflexivity|]. exact W. }
  replace (s "BASETYPES_H = {" ++ ([newline] ++ (pad indent ++ (repr_str k ++ (s ": {" ++ ([newline] ++ (w ++ ([newline] ++ rest))))))))
    with ((s "BASETYPES_H = {" ++ ([newline] ++ (pad indent ++ (repr_str k ++ (s ": {" ++ ([newline] ++ (w ++ [newline]))))))) ++ rest) in A by (rewrite <- !app_assoc; reflexivity).
  rewrite run_app, HEAD in A. cbn [app] in A.
  assert (X : exists us, Some (KWord (s "BASETYPES_H") :: mark "=" :: mark "{" :: KText k :: mark ":" :: mark "{" :: KWord w :: us) =
     Some (KWord title :: mark "=" :: mark "{" :: flat_map entry_tokens d ++ [mark "}"])).
  { destruct (run Between rest) as [[us st]|]; [|discriminate A]. destruct st; try discriminate A; rewrite <- A; [exists us|exists (us ++ [KWord w0])]; reflexivity. }
  destruct X as (us & X). injection X as _ X. destruct d as [|[k' m] d]; [discriminate X|]. cbn [flat_map entry_tokens app fst snd] in X.
  injection X as _ X. destruct m as [|[n l] m]; discriminate X.
Qed.
End ConstantsText.
Print Assumptions C97_get.
Print Assumptions C97_constants.
Print Assumptions C97_default_refuted.

(** ** the parameters without a format: the type is written as Python shows it *)
Lemma run_none_after a b t : run Between a = Some (t, Between) -> run Between b = None -> run Between (a ++ b) = None.
Proof. intros A B. now rewrite run_app, A, B. Qed.
Lemma run_lines_none {A} (f : A -> str) l : (forall x, In x l -> run Between (f x) = None \/ exists t, run Between (f x) = Some (t, Between)) ->
  (exists x, In x l /\ run Between (f x) = None) -> run Between (join [newline] (map f l)) = None.
Proof.
  induction l as [|x l IH]; intros H (y & I & N); [destruct I|].
  assert (X : run Between (f x) = None \/ exists t, run Between (f x) = Some (t, Between)) by (apply H; now left).
  destruct l as [|z l].
  - destruct I as [->|[]]. exact N.
  - change (run Between (f x ++ [newline] ++ join [newline] (map f (z :: l))) = None). rewrite run_app. destruct X as [-> | (t & X)]; [reflexivity|]. rewrite X.
    destruct I as [->|I]; [congruence|]. rewrite (run_none_after [newline] _ [] eq_refl); [reflexivity|]. apply IH; [intros u J; apply H; now right|eauto].
Qed.
Lemma run_none_before a b : run Between a = None -> run Between (a ++ b) = None.
Proof. intros A. now rewrite run_app, A. Qed.
(** C97_parameters_default_refuted: the text of parameters that is asked for
    without a format is not even a sequence of Python's texts, words and marks *)
Theorem C97_parameters_default_refuted defs indent sort text : NoDup (map fst defs) -> defs <> [] ->
  (forall key own, In (key, own) defs -> described own /\ In (s "type") (map fst own)) ->
  parameters_default_text defs indent sort = Ok text -> tokens text = None.
Proof.
  intros ND NE D H. unfold parameters_default_text in H.
  set (g := fun k => a <- lookup str_eqb defs k ;; Ok (map (fun kv => (fst kv, value_of (snd kv))) a)) in H.
  destruct (todict_as (map fst defs) g sort) as [r|] eqn:E; cbn [bind] in H; [|discriminate H]. injection H as <-.
  destruct (todict_as_inv _ _ _ _ E) as (K & IN).
  pose proof (run_blanks _ (pad_blank indent)) as P.
  assert (EN : forall km, In km r -> run Between (entry_text indent (fst km, CMap (snd km)) ++ s ",") = None).
  { intros [k m] I. destruct (IN k m I) as (IK & G). unfold g in G. destruct (lookup str_eqb defs k) as [own|] eqn:L; cbn [bind] in G; [|discriminate G].
    injection G as <-. apply (lookup_in str_eqb str_decides _ _ _ ND) in L. destruct (D k own L) as ((NO & DO) & IT).
    unfold entry_text. cbn [fst snd current_text]. rewrite <- !app_assoc. apply (run_none_after _ _ [] P). apply (run_none_after _ _ _ (run_repr k)).
    apply (run_none_after (s ": {") _ [mark ":"; mark "{"] eq_refl). apply (run_none_after [newline] _ [] eq_refl). apply run_none_before.
    assert (TN : forall t, run Between (attribute_text indent (s "type", VType t)) = None).
    { intros t. unfold attribute_text. cbn [fst snd]. apply (run_none_after _ _ [] P). apply (run_none_after _ _ [] P). apply (run_none_after _ _ _ (run_repr (s "type"))).
      apply (run_none_after (s ": ") _ [mark ":"] eq_refl). destruct t; reflexivity. }
    apply run_lines_none.
    - intros [n v] J. apply in_map_iff in J as ([n' a] & X & J). cbn in X. injection X as -> <-. destruct a as [x|t].
      + right. eexists. apply run_attribute. unfold writable. cbn [fst snd value_of]. intros T. apply (DO _ _ J) in T as (t & T). discriminate T.
      + left. assert (n = s "type") as -> by (apply (DO _ _ J); eauto). apply TN.
    - apply in_map_iff in IT as ([n a] & X & J). cbn in X. subst n. destruct (proj1 (DO _ _ J) eq_refl) as (t & ->).
      exists (s "type", VType t). split; [|apply TN]. apply in_map_iff. exists (s "type", AType t). auto. }
  assert (RN : r <> []).
  { intros ->. destruct defs as [|[k x] l]; [now apply NE|]. destruct sort; [|discriminate K].
    assert (I : In k (sort_by str_ltb (map fst ((k, x) :: l)))) by (apply sort_by_in; now left). rewrite <- K in I. destruct I. }
  assert (B : run Between (tostring indent (as_maps r)) = None).
  { unfold tostring, tolines, as_maps. rewrite !map_map. cbn [fst snd]. apply run_lines_none.
    - intros km I. left. now apply EN.
    - destruct r as [|km r]; [now destruct RN|]. exists km. split; [now left|]. apply EN. now left. }
  enough (R : run Between (titled (s "CONFIGURATION_C") (tostring indent (as_maps r))) = None).
  { unfold tokens. match type of R with run _ ?L = _ => match goal with |- context [run Between ?X] => change X with L end end. rewrite R. reflexivity. }
  unfold titled. rewrite app_assoc.
  apply (run_none_after (s "CONFIGURATION_C" ++ s " = {") _ [KWord (s "CONFIGURATION_C"); mark "="; mark "{"]); [reflexivity|].
  apply (run_none_after [newline] _ [] eq_refl). apply run_none_before, B.
Qed.
Print Assumptions C97_parameters_default_refuted.

(** ** lines *)
Lemma lines_cat a b : lines_of (a ++ newline :: b) = lines_of a ++ lines_of b.
Proof.
  induction a as [|c a IH]; [reflexivity|]. cbn [app lines_of]. rewrite IH. destruct (Ascii.eqb c "010"); [reflexivity|].
  destruct (lines_of a) as [|l ls] eqn:E; [|reflexivity]. destruct a as [|c2 a]; cbn in E; [discriminate|]. destruct (Ascii.eqb c2 "010"); [discriminate|]. destruct (lines_of a); discriminate.
Qed.
Definition one_line (x : str) : Prop := forallb (fun c => negb (Ascii.eqb c "010")) x = true.
Lemma lines_one x : one_line x -> lines_of x = [x].
Proof.
  unfold one_line. induction x as [|c x IH]; intros H; [reflexivity|]. cbn [forallb] in H. apply andb_true_iff in H as [Hc Hx].
  cbn [lines_of]. rewrite (IH Hx). apply negb_true_iff in Hc. now rewrite Hc.
Qed.
Lemma one_line_app a b : one_line (a ++ b) <-> one_line a /\ one_line b.
Proof. unfold one_line. rewrite forallb_app, andb_true_iff. reflexivity. Qed.
Lemma repr_one x : one_line (repr_str x).
Proof.
  assert (C : forall q c, q = "039"%char \/ q = "034"%char -> one_line (escape_char q c)) by (intros q c [-> | ->]; destruct c as [[] [] [] [] [] [] [] []]; reflexivity).
  pose proof (repr_quote_cases x) as Q. unfold repr_str. cbv zeta. set (q := repr_quote x) in *. change (one_line ([q] ++ flat_map (escape_char q) x ++ [q])).
  assert (one_line [q]) by (destruct Q as [-> | ->]; reflexivity).
  apply one_line_app. split; [assumption|]. apply one_line_app. split; [|assumption]. clear -C Q. generalize dependent q. intros q Q. induction x as [|c x IH]; [reflexivity|].
  cbn [flat_map]. apply one_line_app. split; [now apply C|exact IH].
Qed.
Lemma pad_one n : one_line (pad n).
Proof. unfold one_line, pad. induction n; cbn; auto. Qed.
Lemma word_one w : written_word w -> one_line w.
Proof.
  intros (_ & H). unfold one_line. rewrite forallb_forall in *. intros c I. apply H in I. destruct (word_char_plain c I) as (_ & B & _).
  unfold is_blank in B. apply orb_false_iff in B as (B & _). apply orb_false_iff in B as (_ & B). now rewrite B.
Qed.
Lemma attribute_one n kv : writable kv -> one_line (attribute_text n kv).
Proof.
  intros W. unfold attribute_text. repeat (apply one_line_app; split); try apply pad_one; try apply repr_one; try reflexivity.
  destruct kv as [k v]. unfold writable in W. cbn [fst snd] in *. assert (L : forall l, one_line (s "[" ++ join (s ", ") (map repr_str l) ++ s "]")).
  { intros l. apply one_line_app. split; [reflexivity|]. apply one_line_app. split; [|reflexivity]. induction l as [|x l IH]; [reflexivity|].
    destruct l as [|y l]; [apply repr_one|]. change (one_line (repr_str x ++ s ", " ++ join (s ", ") (map repr_str (y :: l)))).
    apply one_line_app. split; [apply repr_one|]. apply one_line_app. split; [reflexivity|exact IH]. }
  destruct (str_eqb k (s "type")) eqn:Q.
  - apply str_eqb_eq in Q. destruct v as [x|t|x| |x]; cbn [str_value repr_value]; first [apply L | contradiction | apply word_one; auto; fail | reflexivity].
  - destruct v as [x|t|x| |x]; cbn [str_value repr_value]; first [apply L | contradiction | apply repr_one | apply word_one; auto; fail | reflexivity].
Qed.
(** one parameter: a line that opens it, a line for each attribute, indented
    twice as far, and a line that closes it; an empty line if there is none *)
Definition block (n : nat) (attributes : nat) (lines : list str) : Prop :=
  exists first body final, lines = first :: body ++ [final] /\ indent_of first = n /\ indent_of final = n /\
    match attributes with O => body = [[]] | _ => length body = attributes /\ Forall (fun line => indent_of line = n + n)%nat body end.
Lemma indent_pad n x : (forall c r, x = c :: r -> c <> " "%char) -> indent_of (pad n ++ x) = n.
Proof.
  intros H. unfold pad. induction n as [|n IH]; cbn [repeat app indent_of].
  - destruct x as [|c r]; [reflexivity|]. cbn. destruct (Ascii.eqb c " ") eqn:E; [|reflexivity]. apply Ascii.eqb_eq in E. now destruct (H c r eq_refl).
  - rewrite Ascii.eqb_refl. now f_equal.
Qed.
Lemma repr_head x r c y : repr_str x ++ y = c :: r -> c <> " "%char.
Proof. unfold repr_str. cbv zeta. intros E. injection E as <- _. destruct (repr_quote_cases x) as [-> | ->]; discriminate. Qed.
Lemma lines_join (f : str * value -> str) m : (forall kv, In kv m -> one_line (f kv)) -> m <> [] -> lines_of (join [newline] (map f m)) = map f m.
Proof.
  induction m as [|x m IH]; intros H NE; [easy|]. destruct m as [|y m]; [apply lines_one, H; now left|].
  change (lines_of (f x ++ newline :: join [newline] (map f (y :: m))) = f x :: map f (y :: m)). rewrite lines_cat, (lines_one (f x)) by (apply H; now left).
  rewrite IH; [reflexivity|intros kv I; apply H; now right|discriminate].
Qed.
Lemma entry_lines n km : Forall writable (snd km) -> block n (length (snd km)) (lines_of (entry_text n (fst km, CMap (snd km)) ++ s ",")).
Proof.
  intros W. rewrite Forall_forall in W. unfold entry_text. cbn [fst snd current_text]. rewrite <- !app_assoc.
  replace (pad n ++ repr_str (fst km) ++ s ": {" ++ [newline] ++ join [newline] (map (attribute_text n) (snd km)) ++ [newline] ++ pad n ++ s "}" ++ s ",")
    with ((pad n ++ repr_str (fst km) ++ s ": {") ++ newline :: join [newline] (map (attribute_text n) (snd km)) ++ newline :: (pad n ++ s "},"))
    by (rewrite <- !app_assoc; reflexivity).
  rewrite !lines_cat. rewrite (lines_one (pad n ++ repr_str (fst km) ++ s ": {")) by (repeat (apply one_line_app; split); try apply pad_one; try apply repr_one; reflexivity).
  rewrite (lines_one (pad n ++ s "},")) by (apply one_line_app; split; [apply pad_one|reflexivity]).
  exists (pad n ++ repr_str (fst km) ++ s ": {"), (lines_of (join [newline] (map (attribute_text n) (snd km)))), (pad n ++ s "},"). split; [reflexivity|].
  split; [apply indent_pad; intros c r; apply repr_head|]. split; [apply indent_pad; intros c r E; injection E as <- _; discriminate|].
  destruct (snd km) as [|kv m] eqn:E; [reflexivity|]. rewrite lines_join by (intros; try apply attribute_one, W; easy).
  split; [rewrite map_length; reflexivity|]. apply Forall_map, Forall_forall. intros kv' _. unfold attribute_text. rewrite app_assoc.
  replace (pad n ++ pad n) with (pad (n + n)) by (unfold pad; apply repeat_app). apply indent_pad. intros c r. apply repr_head.
Qed.
(** C97_layout: the lines of such a text are a title, a block for each entry, and
    a closing mark *)
Theorem C97_layout title n d : written_word title -> Forall (fun km => Forall writable (snd km)) d -> d <> [] ->
  exists blocks, lines_of (titled title (tostring n (as_maps d))) = (title ++ s " = {") :: concat blocks ++ [s "}"] /\
    Forall2 (fun km b => block n (length (snd km)) b) d blocks.
Proof.
  intros T W NE. exists (map (fun km => lines_of (entry_text n (fst km, CMap (snd km)) ++ s ",")) d). split.
  - unfold titled, tostring, tolines, as_maps. rewrite !map_map. cbn [fst snd].
    replace (title ++ s " = {" ++ [newline] ++ join [newline] (map (fun x => entry_text n (fst x, CMap (snd x)) ++ s ",") d) ++ [newline] ++ s "}")
      with ((title ++ s " = {") ++ newline :: join [newline] (map (fun x => entry_text n (fst x, CMap (snd x)) ++ s ",") d) ++ newline :: s "}")
      by (rewrite <- !app_assoc; reflexivity).
    rewrite !lines_cat. rewrite (lines_one (title ++ s " = {")) by (apply one_line_app; split; [now apply word_one|reflexivity]).
    cbn [app]. f_equal. f_equal. clear -NE. induction d as [|x d IH]; [easy|]. destruct d as [|y d]; [cbn; now rewrite app_nil_r|].
    change (lines_of ((entry_text n (fst x, CMap (snd x)) ++ s ",") ++ newline :: join [newline] (map (fun x => entry_text n (fst x, CMap (snd x)) ++ s ",") (y :: d)))
      = lines_of (entry_text n (fst x, CMap (snd x)) ++ s ",") ++ concat (map (fun km => lines_of (entry_text n (fst km, CMap (snd km)) ++ s ",")) (y :: d))).
    rewrite lines_cat. f_equal. apply IH. discriminate.
  - clear NE. induction W as [|km d W F IH]; cbn [map]; constructor; [now apply entry_lines|exact IH].
Qed.
Print Assumptions C97_layout.

(** ** examples *)
Module TextExamples.
Definition defs : list (str * list (str * attr)) :=
  [(s "numObservers", [(s "type", AType TInt); (s "defaultVal", AText (s "0")); (s "maxVal", AText (s "1000"))]);
   (s "gammaE", [(s "type", AType TFloat); (s "defaultVal", AText (s "it's"))])].
Definition meta : list (str * list (str * value)) :=
  [(s "gammaE", [(s "aliases", VTexts [s "xi"; s "x"]); (s "unit", VNone)]); (s "numObservers", [(s "unit", VText (s "1"))])].
Example parameters_hypotheses : NoDup (map fst defs) /\ NoDup (map fst meta) /\
  (forall key own, In (key, own) defs -> described own /\ In (s "type") (map fst own)) /\ (forall key extra, In (key, extra) meta -> documented extra).
Proof.
  repeat split; try (repeat constructor; cbn; intuition discriminate);
  intros; cbn [defs meta In] in *; repeat match goal with H : _ \/ _ |- _ => destruct H | H : False |- _ => destruct H | H : (_, _) = (_, _) |- _ => injection H as; subst end;
  cbn [map fst In] in *; repeat match goal with H : _ \/ _ |- _ => destruct H | H : False |- _ => destruct H | H : (_, _) = (_, _) |- _ => injection H as; subst end;
  try discriminate; try (repeat constructor; cbn; intuition discriminate); eauto;
  try match goal with H : exists _, _ |- _ => destruct H; discriminate end.
Qed.
Definition q1 : str := ["034"%char].
Example parameters_written : parameters_text meta defs 2 true = Ok (
  s "CONFIGURATION_C = {" ++ [newline] ++
  s "  'gammaE': {" ++ [newline] ++ s "    'type': float," ++ [newline] ++ s "    'defaultVal': " ++ q1 ++ s "it's" ++ q1 ++ s "," ++ [newline] ++
  s "    'aliases': ['xi', 'x']," ++ [newline] ++ s "    'unit': None," ++ [newline] ++ s "  }," ++ [newline] ++
  s "  'numObservers': {" ++ [newline] ++ s "    'type': int," ++ [newline] ++ s "    'defaultVal': '0'," ++ [newline] ++
  s "    'maxVal': '1000'," ++ [newline] ++ s "    'unit': '1'," ++ [newline] ++ s "  }," ++ [newline] ++ s "}").
Proof. vm_compute. reflexivity. Qed.
Example parameters_default : exists text, parameters_default_text defs 2 false = Ok text /\ tokens text = None.
Proof. eexists. split; [vm_compute; reflexivity|vm_compute; reflexivity]. Qed.
Definition no_libm : Qc -> Qc -> option Qc := fun _ _ => None.
Definition shown_number (isint : bool) (q : Qc) : str := s "0.5".
Definition consts := [(s "HALF", s "0.5"); (s "F", s "0")].
Definition ctypes := [(s "HALF", false); (s "F", true)].
Definition cmeta : list (str * list (str * value)) := [(s "HALF", [(s "info", VText (s "a half")); (s "type", VType TFloat)])].
Example constants_hypotheses : NoDup (map fst consts) /\ (forall b q, written_word (shown_number b q)) /\ NoDup (map fst cmeta) /\
  (forall key extra, In (key, extra) cmeta -> documented_constant extra) /\
  (forall key, In key (map fst consts) -> exists isint q, computed no_libm consts ctypes 1 key isint q).
Proof.
  split; [repeat constructor; cbn; intuition discriminate|]. split; [intros; split; now vm_compute|]. split; [repeat constructor; cbn; intuition discriminate|]. split.
  - intros key extra [E|[]]. injection E as <- <-. split; [repeat constructor; cbn; intuition discriminate|]. split; [cbn; intuition discriminate|].
    intros name v [E|[E|[]]]; injection E as <- <-; cbn; eauto.
  - intros key [E|[E|[]]]; subst key; do 2 eexists; (split; [vm_compute|]; reflexivity).
Qed.
Example constants_written : constants_text no_libm shown_number consts ctypes cmeta 1 0 false = Ok (
  s "BASETYPES_H = {" ++ [newline] ++ s "'HALF': {" ++ [newline] ++ s "'value': 0.5," ++ [newline] ++ s "'info': 'a half'," ++ [newline] ++ s "'type': float," ++ [newline] ++ s "}," ++ [newline] ++
  s "'F': {" ++ [newline] ++ s "'value': 0.5," ++ [newline] ++ s "}," ++ [newline] ++ s "}").
Proof. vm_compute. reflexivity. Qed.
End TextExamples.
