(** Property C84 (listing, showing, resetting and removing a project), and more
    on C40 (opening), C59 (copies) and C68 (programs). *)
From Verif Require Import PyBase PyLemmas ContainerModel ContainerSpec ContainerProofs ContainerProofs2
  FsModel FsProofs ProjectModel ProjectSpec ProjectProofs ProjectProofs2 ProjectProofs3 ProjectProofs4 ProjectProofs5 ProjectProofs6 ProjectProofs7
  ProjectProperties RunLogModel RunLogSpec RunLogProperties.

(** [*] matches every name *)
Definition matches_all (matches : str -> str -> bool) : Prop := forall x, matches (s "*") x = true.
Lemma wildcard_all : matches_all wildcard.
Proof.
  intros x. change (s "*") with ["*"%char]. cbn [wildcard]. change (Ascii.eqb "*" "*") with true. cbn iota.
  induction x as [|c x IH]; [reflexivity|]. cbn [wildcard orb]. exact IH.
Qed.
Lemma join_named (p : path) x : x <> [] -> join_local p x = p ++ [x].
Proof. destruct x; [congruence|reflexivity]. Qed.
Lemma name_app (p : path) x : name (p ++ [x]) = x.
Proof. unfold name. apply last_last. Qed.
Lemma glob_names matches f d x : matches_all matches -> In x (map name (glob matches f d (s "*"))) <-> exists_ f (d ++ [x]) = true.
Proof.
  intros Ma. rewrite in_map_iff. split.
  - intros (p & <- & I). apply glob_spec in I as (y & -> & _ & E). rewrite name_app. exact E.
  - intros E. exists (d ++ [x]). split; [apply name_app|]. apply glob_spec. exists x. split; [reflexivity|]. split; [apply Ma|exact E].
Qed.
Lemma glob_nodup matches f d pat : NoDup (map name (glob matches f d pat)).
Proof.
  unfold glob. rewrite map_map. rewrite (map_ext _ (fun x => x)) by (intros x; apply name_app). rewrite map_id. apply NoDup_filter.
  apply (unique_items_spec str_eqb str_decides).
Qed.

(** ** Listing.  Without branches: the entries of the run directory. *)
Theorem C84_runs matches w : matches_all matches -> w_base w <> [] -> w_branches w = [] ->
  NoDup (map fst (project_runs matches w)) /\
  forall r bs, In (r, bs) (project_runs matches w) <-> bs = [] /\ exists_ (w_fs w) (w_root w ++ [w_base w; r]) = true.
Proof.
  intros Ma Nb B. unfold project_runs. rewrite B, (join_named _ _ Nb). split.
  - rewrite map_map. cbn [fst]. apply glob_nodup.
  - intros r bs. rewrite in_map_iff. replace (w_root w ++ [w_base w; r]) with ((w_root w ++ [w_base w]) ++ [r]) by (rewrite <- app_assoc; reflexivity).
    rewrite <- (glob_names matches (w_fs w) (w_root w ++ [w_base w]) r Ma), in_map_iff. split.
    + intros (p & E & I). injection E as <- <-. split; [reflexivity|]. exists p. split; [reflexivity|exact I].
    + intros (-> & p & <- & I). exists p. split; [reflexivity|exact I].
Qed.
(** With branches: the entries of the run directories of the branches, each with
    the branches in which it is a directory. *)
Theorem C84_runs_in_branches matches w : matches_all matches -> w_base w <> [] -> w_branches w <> [] ->
  NoDup (map fst (project_runs matches w)) /\
  (forall r, In r (map fst (project_runs matches w)) <-> exists b, In b (w_branches w) /\ exists_ (w_fs w) (w_root w ++ [b; w_base w; r]) = true) /\
  forall r bs, In (r, bs) (project_runs matches w) -> forall b, In b bs <-> In b (w_branches w) /\ is_dir (w_fs w) (w_root w ++ [b; w_base w; r]) = true.
Proof.
  intros Ma Nb B. unfold project_runs. destruct (w_branches w) as [|b0 bs0] eqn:E; [congruence|]. rewrite <- E.
  set (names := unique_items str_eqb (flat_map (fun b => map name (glob matches (w_fs w) (join_local (w_root w ++ [b]) (w_base w)) (s "*"))) (w_branches w))).
  assert (Mf : forall g : str -> list str, map fst (map (fun r => (r, g r)) names) = names) by (intros g; rewrite map_map; cbn [fst]; apply map_id). rewrite Mf.
  destruct (unique_items_spec str_eqb str_decides (flat_map (fun b => map name (glob matches (w_fs w) (join_local (w_root w ++ [b]) (w_base w)) (s "*"))) (w_branches w))) as (Nd & I & _).
  assert (P : forall b r, join_local (w_root w ++ [b]) (w_base w) ++ [r] = w_root w ++ [b; w_base w; r]) by (intros b r; rewrite (join_named _ _ Nb), <- !app_assoc; reflexivity).
  split; [exact Nd|]. split.
  - intros r. unfold names. rewrite I, in_flat_map. split; intros (b & Hb & H); exists b; (split; [exact Hb|]).
    + apply (glob_names _ _ _ _ Ma) in H. rewrite P in H. exact H.
    + apply (glob_names _ _ _ _ Ma). rewrite P. exact H.
  - intros r bs H. apply in_map_iff in H as (r' & X & _). injection X as <- <-. intros b. rewrite filter_In, P. reflexivity.
Qed.
(** The other way round: each branch with its runs. *)
Theorem C84_branches matches w : matches_all matches -> w_base w <> [] ->
  (w_branches w = [] -> project_branches matches w = []) /\
  (NoDup (map fst (project_branches matches w))) /\
  (forall b, In b (map fst (project_branches matches w)) <-> In b (w_branches w)) /\
  forall b rs, In (b, rs) (project_branches matches w) -> NoDup rs /\ forall r, In r rs <-> is_dir (w_fs w) (w_root w ++ [b; w_base w; r]) = true.
Proof.
  intros Ma Nb. unfold project_branches. destruct (w_branches w) as [|b0 bs0] eqn:E.
  - split; [reflexivity|]. split; [constructor|]. split; [intros b; reflexivity|]. intros b rs [].
  - rewrite <- E. assert (Bn : w_branches w <> []) by congruence. split; [intros X; congruence|].
    destruct (C84_runs_in_branches matches w Ma Nb Bn) as (N1 & K1 & V1). destruct (unique_items_spec str_eqb str_decides (w_branches w)) as (Nd & I & _).
    assert (Mf : forall g : str -> list str, map fst (map (fun b => (b, g b)) (unique_items str_eqb (w_branches w))) = unique_items str_eqb (w_branches w)) by (intros g; rewrite map_map; cbn [fst]; apply map_id).
    rewrite Mf. split; [exact Nd|]. split; [exact I|]. intros b rs H. apply in_map_iff in H as (b' & X & Hb). injection X as <- <-. split.
    + clear - N1. induction (project_runs matches w) as [|[r bs] l IH]; [constructor|]. cbn [map fst] in N1. inversion N1 as [|? ? Na Nd]; subst. cbn [filter snd]. destruct (mem str_eqb b' bs); [|apply IH, Nd].
      cbn [map fst]. constructor; [|apply IH, Nd]. intros X. apply Na. apply in_map_iff in X as (e & <- & X). apply filter_In in X as (X & _). apply in_map, X.
    + intros r. rewrite in_map_iff. split.
      * intros ((r' & bs) & <- & X). apply filter_In in X as (X & Mb). cbn [fst snd] in *. apply (mem_spec str_eqb str_decides) in Mb. apply (V1 r' bs X b') in Mb. apply Mb.
      * intros D. apply I in Hb. assert (Hr : In r (map fst (project_runs matches w))).
        { apply K1. exists b'. split; [exact Hb|]. apply exists_get. apply is_dir_get in D. rewrite D. discriminate. }
        apply in_map_iff in Hr as ((r' & bs) & Er & X). cbn [fst] in Er. subst r'. exists (r, bs). split; [reflexivity|]. apply filter_In. split; [exact X|].
        cbn [snd]. apply (mem_spec str_eqb str_decides). apply (V1 r bs X b'). split; [exact Hb|exact D].
Qed.
(** A plain file among the runs is listed as a run, and its place is shown as
    that of a run: without branches its own, with branches a path outside every
    branch. *)
Theorem C84_file_listed_refuted matches w x : matches_all matches -> w_base w <> [] ->
  (w_branches w = [] -> is_file (w_fs w) (w_root w ++ [w_base w; x]) = true -> In (x, []) (project_runs matches w) /\ show_run matches w x = Some [w_root w ++ [w_base w; x]]) /\
  (forall b, In b (w_branches w) -> is_file (w_fs w) (w_root w ++ [b; w_base w; x]) = true -> (forall b, In b (w_branches w) -> is_dir (w_fs w) (w_root w ++ [b; w_base w; x]) = false) ->
     show_run matches w x = Some [w_root w ++ [w_base w; x]]).
Proof.
  intros Ma Nb. assert (Fe : forall p, is_file (w_fs w) p = true -> exists_ (w_fs w) p = true) by (intros p; unfold is_file, exists_; destruct (fs_get (w_fs w) p); [reflexivity|discriminate]). split.
  - intros B Fi. destruct (C84_runs matches w Ma Nb B) as (Nd & I). assert (X : In (x, []) (project_runs matches w)) by (apply I; split; [reflexivity|apply Fe, Fi]). split; [exact X|].
    unfold show_run. rewrite (proj2 (lookup_in str_eqb str_decides _ _ [] Nd) X). cbn [resolve]. rewrite (join_named _ _ Nb), <- app_assoc. reflexivity.
  - intros b Hb Fi Nd. assert (Bn : w_branches w <> []) by (intros X; rewrite X in Hb; destruct Hb). destruct (C84_runs_in_branches matches w Ma Nb Bn) as (N1 & K1 & V1).
    assert (Hr : In x (map fst (project_runs matches w))) by (apply K1; exists b; split; [exact Hb|apply Fe, Fi]). apply in_map_iff in Hr as ((r' & bs) & Er & X). cbn [fst] in Er. subst r'.
    unfold show_run. rewrite (proj2 (lookup_in str_eqb str_decides _ _ bs N1) X). assert (bs = []) as ->.
    { destruct bs as [|b1 bs]; [reflexivity|]. destruct (proj1 (V1 x _ X b1) (or_introl eq_refl)) as (H1 & H2). rewrite (Nd b1 H1) in H2. discriminate. }
    cbn [resolve]. rewrite (join_named _ _ Nb), <- app_assoc. reflexivity.
Qed.
(** ** Showing runs: exactly the directories of the run, or a message. *)
Theorem C84_show matches w x : matches_all matches -> w_base w <> [] -> 
  (w_branches w = [] -> show_run matches w x = if exists_ (w_fs w) (w_root w ++ [w_base w; x]) then Some [w_root w ++ [w_base w; x]] else None) /\
  (w_branches w <> [] -> (exists b, In b (w_branches w) /\ is_dir (w_fs w) (w_root w ++ [b; w_base w; x]) = true) ->
     exists ps, show_run matches w x = Some ps /\ forall p, In p ps <-> exists b, In b (w_branches w) /\ p = w_root w ++ [b; w_base w; x] /\ is_dir (w_fs w) p = true) /\
  (w_branches w <> [] -> (forall b, In b (w_branches w) -> exists_ (w_fs w) (w_root w ++ [b; w_base w; x]) = false) -> show_run matches w x = None).
Proof.
  intros Ma Nb. split; [|split].
  - intros B. destruct (C84_runs matches w Ma Nb B) as (Nd & I). unfold show_run. destruct (exists_ (w_fs w) (w_root w ++ [w_base w; x])) eqn:E.
    + assert (X : In (x, []) (project_runs matches w)) by (apply I; split; [reflexivity|exact E]). rewrite (proj2 (lookup_in str_eqb str_decides _ _ [] Nd) X). cbn [resolve]. rewrite (join_named _ _ Nb), <- app_assoc. reflexivity.
    + destruct (lookup str_eqb (project_runs matches w) x) as [bs|e] eqn:L; [|reflexivity]. exfalso. 
      assert (Hr : In x (map fst (project_runs matches w))).
      { clear - L. induction (project_runs matches w) as [|[a u] l IH]; [discriminate|]. cbn [lookup] in L. destruct (str_eqb a x) eqn:Ea; [left; apply str_eqb_eq; exact Ea|right; apply IH, L]. }
      apply in_map_iff in Hr as ((r' & bs') & Er & X). cbn [fst] in Er. subst r'. apply I in X as (_ & X). congruence.
  - intros B (b & Hb & D). destruct (C84_runs_in_branches matches w Ma Nb B) as (N1 & K1 & V1).
    assert (Hr : In x (map fst (project_runs matches w))) by (apply K1; exists b; split; [exact Hb|apply exists_get; apply is_dir_get in D; rewrite D; discriminate]).
    apply in_map_iff in Hr as ((r' & bs) & Er & X). cbn [fst] in Er. subst r'. unfold show_run. rewrite (proj2 (lookup_in str_eqb str_decides _ _ bs N1) X).
    assert (Hbs : In b bs) by (apply (V1 x bs X b); split; assumption). destruct bs as [|b1 bs]; [destruct Hbs|]. eexists. split; [reflexivity|]. unfold resolve. intros p. rewrite in_map_iff. split.
    + intros (c & <- & Hc). apply (V1 x _ X c) in Hc as (Hc & Dc). exists c. rewrite (join_named _ _ Nb), <- !app_assoc. split; [exact Hc|]. split; [reflexivity|exact Dc].
    + intros (c & Hc & -> & Dc). exists c. split; [rewrite (join_named _ _ Nb), <- !app_assoc; reflexivity|]. apply (V1 x _ X c). split; assumption.
  - intros B N. destruct (C84_runs_in_branches matches w Ma Nb B) as (N1 & K1 & V1). unfold show_run. destruct (lookup str_eqb (project_runs matches w) x) as [bs|e] eqn:L; [|reflexivity]. exfalso.
    assert (Hr : In x (map fst (project_runs matches w))).
    { clear - L. induction (project_runs matches w) as [|[a u] l IH]; [discriminate|]. cbn [lookup] in L. destruct (str_eqb a x) eqn:Ea; [left; apply str_eqb_eq; exact Ea|right; apply IH, L]. }
    apply K1 in Hr as (b & Hb & E). rewrite (N b Hb) in E. discriminate.
Qed.
Theorem C84_show_star matches w runs : shown_runs matches w runs = if list_eq_dec str_eq_dec runs [s "*"] then map fst (project_runs matches w) else runs.
Proof.
  unfold shown_runs. destruct (list_eq_dec str_eq_dec runs [s "*"]) as [->|N]; [rewrite str_eqb_refl; reflexivity|]. destruct runs as [|r [|r2 rs]]; try reflexivity.
  rewrite str_other; [reflexivity|]. intros ->. apply N. reflexivity.
Qed.

(** ** Reset: no run is left, neither on the disk nor in the log. *)
Theorem C84_reset matches force w w' : matches_all matches -> sound w -> logged_runs_exist w -> project_reset matches force w = (w', Ok tt) ->
  (forall p, run_path w p -> exists_ (w_fs w') p = false) /\ (forall k, record_of w' k <> None -> common_key k) /\
  (forall k, common_key k -> ~ (exists p, run_path w p /\ k = path_str p)) /\
  (forall z, z <> w_log w -> (forall p, run_path w p -> ~ within p z) -> fs_get (w_fs w') z = fs_get (w_fs w) z).
Proof.
  intros Ma Hs Hl E. assert (Ep : perform matches (Rm (s "*") [] (negb force)) w = (w', Ok tt)) by exact E.
  assert (Ho : survived (Ok tt)) by discriminate. destruct (perform_logged matches (Rm (s "*") [] (negb force)) w w' _ Hs Hl Logic.I Ep Ho) as (Hs' & Hl' & Es).
  assert (No : forall p, run_path w p -> exists_ (w_fs w') p = false).
  { intros p Hp. destruct Hp as (d & x & Hd & N1 & N2 & ->). assert (Px : proper_name x) by (split; assumption).
    destruct (C37_rm matches (s "*") [] (negb force) w w' Hs Hl E d x Hd Px) as (R & _). cbv iota in R. change (match s "*" with [] => s "*" | _ => s "*" end) with (s "*") in R.
    assert (Sd : selected w [] d). { destruct Hd as [(B & ->)|(b & Hb & ->)]; [left|right]; [split; [exact B|]; split; [reflexivity|left; reflexivity]|exists b; split; [exact Hb|]; split; [reflexivity|left; reflexivity]]. }
    specialize (R Sd (Ma x)). destruct (exists_ (w_fs w) (d ++ [x])) eqn:Ex.
    - destruct (R Ex) as (R1 & _). apply exists_false. specialize (R1 []). rewrite app_nil_r in R1. exact R1.
    - destruct (exists_ (w_fs w') (d ++ [x])) eqn:Ex'; [|reflexivity]. exfalso.
      destruct (rm_all w Hs matches (s "*") [] (negb force) w w' _ (Inv_refl w Hs Hl) E) as (ps & HU & Hsel & Hall & Ch). destruct (rm_chain_result w Hs _ _ _ _ HU Ch) as (R1 & _ & _).
      assert (Rp : RP (run_directory w) (d ++ [x])) by (exists d, x; split; [exact Hd|split; [first [exact Px|exact N1]|first [reflexivity|split; [exact N2|reflexivity]]]]). destruct (R1 _ Rp) as [_ B].
      assert (U : untouched w w' (d ++ [x])).
      { apply one_untouched. apply B. left. intros Hin. destruct (Hsel _ Hin) as (d' & x' & _ & Ed & _ & Ee). congruence. }
      rewrite (untouched_exists _ _ _ U) in Ex'. congruence. }
  split; [exact No|]. split.
  - intros k Hk. assert (Dec : common_key k \/ ~ common_key k).
    { unfold common_key. destruct (str_eq_dec k (s "config")) as [->|N1]; [left; left; reflexivity|]. destruct (str_eq_dec k (s "output")) as [->|N2]; [left; right; reflexivity|]. right. intros [X|X]; contradiction. }
    destruct Dec as [C|C]; [exact C|]. destruct (Hl' k Hk C) as (p & Hp & _ & D). apply (settings_run_path w' w p Es) in Hp. apply No in Hp. apply is_dir_get in D. apply exists_false in Hp. congruence.
  - split.
    + intros k C (p & _ & ->). destruct (path_str_head p) as (r & Er). destruct C as [C|C]; rewrite Er in C; discriminate C.
    + exact (C58_nothing_else_changes matches (Rm (s "*") [] (negb force)) w w' _ Hs Logic.I Ep).
Qed.

(** ** Remove: the whole project directory and nothing else *)
Theorem C84_remove force w : w_root w <> [] ->
  (is_dir (w_fs w) (w_root w) = true -> 1 <= w_steps w -> exists w', project_remove force w = (w', Ok tt) /\ (forall z, within (w_root w) z -> fs_get (w_fs w') z = None) /\
     (forall z, ~ within (w_root w) z -> fs_get (w_fs w') z = fs_get (w_fs w) z) /\
     project_remove false w' = (w', Raise (OtherError "FileNotFoundError")) /\ project_remove true w' = (w', Ok tt)) /\
  (is_dir (w_fs w) (w_root w) = false -> project_remove force w = (w, if force then Ok tt else Raise (OtherError "FileNotFoundError"))).
Proof.
  intros Ne. unfold project_remove, disk, mbind, get, lift, set_fs, ret, raise. cbn. split.
  - intros D St. rewrite D. destruct w as [f rt br ba lg at_ n]. cbn [w_fs w_root w_steps] in *. destruct n as [|n]; [inversion St|]. eexists. split; [reflexivity|]. cbn [w_fs w_root].
    assert (G : forall z, within rt z -> fs_get (rmtree f rt) z = None).
    { intros z Hz. rewrite get_rmtree by exact Ne. destruct Hz as (r & ->). rewrite (proj2 (at_or_below_iff rt (rt ++ r))); [reflexivity|exists r; reflexivity]. }
    split; [exact G|]. split.
    + intros z Hz. rewrite get_rmtree by exact Ne. rewrite (proj2 (at_or_below_false rt z)); [reflexivity|exact Hz].
    + assert (N : is_dir (rmtree f rt) rt = false). { unfold is_dir. rewrite G; [reflexivity|exists []; rewrite app_nil_r; reflexivity]. } rewrite N. split; reflexivity.
  - intros D. rewrite D. destruct force; reflexivity.
Qed.
Theorem C84_valid force x : (forall x', object_remove force x = (x', Ok tt) -> o_valid x' = false) /\
  (forall x' e, object_remove force x = (x', Raise e) -> o_valid x' = o_valid x).
Proof. unfold object_remove. destruct (project_remove force (o_world x)) as [w [[]|e0]]; (split; [intros x1 E|intros x1 e1 E]); (discriminate E || (injection E as <-; reflexivity) || (injection E as <- _; reflexivity)). Qed.

(** ** The name of a project, before and after it is renamed *)
Theorem C84_name x : o_name x = None -> snd (object_name x) = name (w_root (o_world x)).
Proof. unfold object_name. intros ->. reflexivity. Qed.
Theorem C84_name_refuted x new force x' : object_rename new force (fst (object_name x)) = (x', Ok tt) -> snd (object_name x') = snd (object_name x).
Proof.
  unfold object_rename. destruct (project_rename new force (o_world (fst (object_name x)))) as [w r]. intros E. injection E as <- _. unfold object_name.
  destruct (o_name x) as [n|] eqn:O; cbn [fst snd o_name]; [rewrite O; reflexivity|reflexivity].
Qed.
(** Two objects for the same project are not equal. *)
Theorem C84_equality_refuted w valid n i j : i <> j -> object_eq (mkobject w valid n i) (mkobject w valid n j) = false.
Proof. intros N. unfold object_eq. cbn [o_id]. apply Nat.eqb_neq, N. Qed.

(** ** C40: metadata written by hand, and damaged metadata *)
Definition optional_text (d : list (str * json)) (k : str) (v : option str) : Prop :=
  match attribute d k with None | Some JNull => v = None | Some (JStr x) => v = Some x | _ => False end.
Definition optional_texts (d : list (str * json)) (k : str) (v : option (list str)) : Prop :=
  match attribute d k with None | Some JNull => v = None | Some (JList l) => exists t, l = map JStr t /\ v = Some t | _ => False end.
Lemma get_str_ok d k v : optional_text d k v -> get_str d k = Ok v.
Proof.
  unfold optional_text, get_str. change attribute with found. pose proof (lookup_found_iff d k) as L. destruct (found d k) as [[| | |]|]; [rewrite L; intros ->; reflexivity|rewrite L; intros ->; reflexivity|intros []|intros []|].
  destruct L as (e & ->). intros ->. reflexivity.
Qed.
Lemma get_strs_ok d k v : optional_texts d k v -> get_strs d k = Ok v.
Proof.
  unfold optional_texts, get_strs. change attribute with found. pose proof (lookup_found_iff d k) as L. destruct (found d k) as [[| |l|]|]; [rewrite L; intros ->; reflexivity|intros []| |intros []|].
  - rewrite L. intros (t & -> & ->). assert (X : mapM (fun j => match j with JStr x => Ok x | _ => Raise TypeError end) (map JStr t) = Ok t).
    { clear. induction t as [|x t IH]; cbn [map mapM bind]; [reflexivity|]. rewrite IH. reflexivity. }
    rewrite X. reflexivity.
  - destruct L as (e & ->). intros ->. reflexivity.
Qed.
Lemma attribute_without d k : k <> s "root" -> attribute (without_key d (s "root")) k = attribute d k.
Proof. intros N. change attribute with found. rewrite found_without, str_other by congruence. reflexivity. Qed.
(** Each attribute may be missing or null, and then has its default. *)
Theorem C40_metadata f p d here b c i o r l : fs_get f (p ++ [s ".eprem.conf"]) = Some (File (Json (JObj d))) -> attribute d (s "root") = Some (JStr here) ->
  optional_texts d (s "branches") b -> optional_text d (s "config") c -> optional_text d (s "inputs") i -> optional_text d (s "output") o -> optional_text d (s "rundir") r -> optional_text d (s "logname") l ->
  restore f p = attrs_of (components here) (mkoptions b c i o r l).
Proof.
  intros G R Hb Hc Hi Ho Hr Hl. unfold restore, read. unfold conf. rewrite G. cbn [bind]. change attribute with found in R. pose proof (lookup_found_iff d (s "root")) as L. rewrite R in L. rewrite L.
  assert (T : forall k v, k <> s "root" -> optional_text d k v -> get_str (without_key d (s "root")) k = Ok v).
  { intros k v N H. apply get_str_ok. unfold optional_text in *. rewrite attribute_without by exact N. exact H. }
  assert (Ts : get_strs (without_key d (s "root")) (s "branches") = Ok b).
  { apply get_strs_ok. unfold optional_texts in *. rewrite attribute_without by discriminate. exact Hb. }
  unfold options_of. rewrite Ts. cbn [bind]. rewrite (T (s "config") c ltac:(discriminate) Hc). cbn [bind]. rewrite (T (s "inputs") i ltac:(discriminate) Hi). cbn [bind]. rewrite (T (s "output") o ltac:(discriminate) Ho). cbn [bind].
  rewrite (T (s "rundir") r ltac:(discriminate) Hr). cbn [bind]. rewrite (T (s "logname") l ltac:(discriminate) Hl). reflexivity.
Qed.
Theorem C40_defaults root : attrs_of root (mkoptions None None None None None None) =
  Ok (mkattrs root [] (s "eprem.cfg") (root ++ [s "inputs"]) (s "eprem.log") (s "runs") (s "runs.json")).
Proof. reflexivity. Qed.
(** A log name that has no last component is refused, and nothing is created. *)
Theorem C40_log_name f p o : localize (or_str (o_logname o) (s "runs")) = [] -> exists_ f p = false -> get_attrs f p o = (f, Raise ValueError).
Proof. intros L N. unfold get_attrs, create_project, attrs_of. rewrite N, L. reflexivity. Qed.
Theorem C40_damaged f p :
  (fs_get f (p ++ [s ".eprem.conf"]) = None -> restore f p = Raise (OtherError "FileNotFoundError")) /\
  (forall t, fs_get f (p ++ [s ".eprem.conf"]) = Some (File (Text t)) -> restore f p = Raise (OtherError "JSONDecodeError")) /\
  (forall d, fs_get f (p ++ [s ".eprem.conf"]) = Some (File (Json (JObj d))) -> attribute d (s "root") = None -> restore f p = Raise KeyError) /\
  (forall j, fs_get f (p ++ [s ".eprem.conf"]) = Some (File (Json j)) -> (forall d, j <> JObj d) -> restore f p = Raise (match j with JList [] => KeyError | _ => TypeError end)).
Proof.
  unfold restore, read, conf. split; [|split; [|split]].
  - intros ->. reflexivity.
  - intros t ->. reflexivity.
  - intros d -> R. cbn [bind]. change attribute with found in R. pose proof (lookup_found_iff d (s "root")) as L. rewrite R in L. destruct L as (e & ->). reflexivity.
  - intros j -> N. cbn [bind]. destruct j as [| |[|]|l]; try reflexivity. destruct (N l eq_refl).
Qed.

(** ** C59: the inputs of a copied project *)
Lemma copytree_get f src dst f' : copytree f src dst = Ok f' -> dst <> [] -> src <> [] -> is_dir f src = true /\
  forall z, fs_get f' z = match strip_prefix dst z with Some r => match fs_get f (src ++ r) with Some n => Some n | None => fs_get f z end | None => fs_get f z end.
Proof.
  unfold copytree. destruct (is_dir f src) eqn:D; [|discriminate]. cbn [negb]. intros E Ne Ns. injection E as <-. split; [reflexivity|].
  assert (G : forall l z, entry (fold_right (fun e g => match strip_prefix src (fst e) with Some r => put g (dst ++ r) (snd e) | None => g end) f l) z =
    match strip_prefix dst z with Some r => match entry l (src ++ r) with Some n => Some n | None => entry f z end | None => entry f z end).
  { intros l z. induction l as [|[q n] l IH].
    - cbn [fold_right entry]. destruct (strip_prefix dst z); reflexivity.
    - cbn [fold_right fst snd]. destruct (strip_prefix src q) as [r|] eqn:S.
      + apply strip_prefix_some in S. subst q. rewrite entry_put. destruct (path_eqb (dst ++ r) z) eqn:Ez.
        * apply path_eqb_eq in Ez. subst z. rewrite (proj2 (strip_prefix_some dst (dst ++ r) r) eq_refl). cbn [entry]. rewrite path_eqb_refl. reflexivity.
        * rewrite IH. destruct (strip_prefix dst z) as [r'|] eqn:Sz; [|reflexivity]. apply strip_prefix_some in Sz. subst z. cbn [entry].
          rewrite (path_eqb_neq (src ++ r)); [reflexivity|]. intros X. apply app_inv_head in X. subst r'. rewrite path_eqb_refl in Ez. discriminate.
      + rewrite IH. destruct (strip_prefix dst z) as [r'|] eqn:Sz; [|reflexivity]. cbn [entry]. rewrite (path_eqb_neq q); [reflexivity|]. intros ->. apply strip_prefix_none in S. apply S. exists r'. reflexivity. }
  intros z. destruct z as [|y z].
  - cbn [fs_get]. destruct dst; [congruence|]. reflexivity.
  - change (fs_get ?g (y :: z)) with (entry g (y :: z)). rewrite G. destruct (strip_prefix dst (y :: z)) as [r|]; [|reflexivity].
    assert (Es : fs_get f (src ++ r) = entry f (src ++ r)) by (destruct src; [congruence|reflexivity]). rewrite Es. reflexivity.
Qed.
Lemma attrs_inputs root o a : attrs_of root o = Ok a -> a_root a = root /\ exists r, a_inputs a = root ++ r.
Proof.
  intros H. destruct (attrs_of_inv _ _ _ H) as (A1 & _ & _ & A4 & _). split; [exact A1|]. rewrite A4. unfold join_local. destruct (localize _) as [|c x]; [exists []; rewrite app_nil_r; reflexivity|eexists; reflexivity].
Qed.
(** Every file of the copied project's inputs is in the inputs of the new project,
    and nothing that existed has changed. *)
Theorem C59_inputs_copied f p q o script n w a : tree f -> exists_ f p = false -> open_project f p (Some q) o script n = Ok w -> restore f q = Ok a -> a_inputs a <> [] ->
  (forall r nd, fs_get f (a_inputs a ++ r) = Some nd -> fs_get (w_fs w) (a_inputs (w_attrs w) ++ r) = Some nd) /\
  (forall z, fs_get f z <> None -> fs_get (w_fs w) z = fs_get f z).
Proof.
  intros T Np H R Na. unfold open_project in H. rewrite (C59_copy_options_refuted _ _ _ _ _ R) in H. unfold init_project, get_attrs in H. rewrite Np in H. cbn [negb] in H. unfold create_project in H.
  destruct (attrs_of p o) as [b|e] eqn:Ea; [|discriminate]. destruct (attrs_inputs _ _ _ Ea) as (A1 & ri & Ai).
  rewrite A1 in H. destruct (mkdir f p false) as [f1|e] eqn:E1; [|discriminate].
  destruct (write f1 (conf p) (Json (serial b))) as [f2|e] eqn:E2; [|discriminate].
  destruct (get_log f2 b) as [f3|e] eqn:E3; [|discriminate]. cbn [bind] in H. rewrite ?A1 in H.
  destruct (mkdirs f3 (listing_of p (a_branches b) (a_rundir b))) as [f4|e] eqn:E4; [|discriminate]. cbn [bind] in H.
  destruct (setup_cli f4 b script) as [f5|e] eqn:E5; [|discriminate]. cbn [bind] in H.
  destruct (mkdir f5 (a_inputs b) true) as [f6|e] eqn:E6; [|discriminate]. cbn [bind] in H.
  destruct (restore f6 q) as [a6|e] eqn:R6; [|discriminate]. cbn [bind] in H.
  destruct (copytree f6 (a_inputs a6) (a_inputs b)) as [f7|e] eqn:C; [|discriminate]. cbn [bind] in H. injection H as <-. cbn [w_fs w_attrs].
  assert (Pne : p <> []) by (intros ->; discriminate Np). apply exists_false in Np.
  assert (F0 : forall z, within p z -> fs_get f z = None).
  { intros z (r & ->). destruct (fs_get f (p ++ r)) as [m|] eqn:G; [|reflexivity]. exfalso. assert (Ge : fs_get f (p ++ r) = entry f (p ++ r)) by (destruct p; [congruence|reflexivity]).
    rewrite Ge in G. apply entry_in in G. exact (tree_prefix f _ m T G r p eq_refl Np). }
  assert (F1 : fs_get f1 (conf p) = None).
  { destruct (mkdir_spec _ _ _ _ E1 Pne) as (_ & B & _). unfold conf. rewrite B; [apply F0; eexists; reflexivity|]. intros [r Rr]. apply (f_equal (@List.length _)) in Rr. rewrite !app_length in Rr. cbn in Rr. clear - Rr. lia. }
  pose proof (extends_mkdir _ _ _ _ Pne E1) as X1. pose proof (extends_write _ _ _ _ F1 E2) as X2.
  assert (X3 : extends f2 f3). { unfold get_log in E3. destruct (exists_ f2 (log_path b)) eqn:G; [injection E3 as <-; apply extends_refl|]. apply exists_false in G. exact (extends_write _ _ _ _ G E3). }
  assert (Dn : forall d, In d (listing_of p (a_branches b) (a_rundir b)) -> d <> []).
  { intros d Hd. unfold listing_of, join_local in Hd. destruct (a_branches b).
    - destruct Hd as [<-|[]]. destruct (a_rundir b); [assumption|]. apply snoc_nonempty.
    - apply in_map_iff in Hd as (b' & <- & _). destruct (a_rundir b); apply snoc_nonempty. }
  destruct (mkdirs_spec _ _ _ Dn E4) as (X4 & _).
  assert (X5 : extends f4 f5). { unfold setup_cli in E5. destruct (exists_ f4 (a_root b ++ [s "__main__.py"])) eqn:G; [injection E5 as <-; apply extends_refl|]. apply exists_false in G. destruct script as [t|e]; [|discriminate]. exact (extends_write _ _ _ _ G E5). }
  assert (Ni : a_inputs b <> []) by (rewrite Ai; destruct p; [congruence|discriminate]). pose proof (extends_mkdir _ _ _ _ Ni E6) as X6.
  assert (X : extends f f6) by (repeat (eapply extends_trans; [eassumption|]); apply extends_refl).
  assert (a6 = a) as ->.
  { revert R6 R. unfold restore. destruct (fs_get f (conf q)) as [nd|] eqn:G; [|unfold read at 2; rewrite G; discriminate]. unfold read. rewrite (extends_get _ _ _ _ X G), G. congruence. }
  destruct (copytree_get _ _ _ _ C Ni Na) as (_ & Tg). split.
  - intros r nd G. rewrite Tg, (proj2 (strip_prefix_some _ _ r) eq_refl), (extends_get _ _ _ _ X G). reflexivity.
  - intros z Hz. rewrite Tg. destruct (strip_prefix (a_inputs b) z) as [r|] eqn:Sz; [|apply X, Hz]. exfalso. apply Hz. apply F0. apply strip_prefix_some in Sz. exists (ri ++ r). rewrite Sz, Ai, app_assoc. reflexivity.
Qed.

(** ** C68: which programs are run *)
Theorem C68_programs o x branch w :
  (forall p, environment o x = Some p -> exists_ (w_fs w) p = true -> locate o x branch w = (w, Ok p)) /\
  (environment o x = None -> exists_ (w_fs w) (branch ++ [x]) = true -> locate o x branch w = (w, Ok (branch ++ [x]))) /\
  (exists_ (w_fs w) (match environment o x with Some p => p | None => branch ++ [x] end) = false ->
     locate o x branch w = (w, match which o x with Some p => Ok p | None => Raise TypeError end)).
Proof.
  unfold locate, mbind, get, ret, raise. split; [|split].
  - intros p -> ->. reflexivity.
  - intros -> ->. reflexivity.
  - intros ->. destruct (which o x); reflexivity.
Qed.

(** ** Concrete cases *)
Definition after_two (bs : list str) : world := fst (history wildcard [ex_run 0 (s "r1"); ex_run 0 (s "r2")] (ex_world bs 100)).
Definition set_disk (w : world) (f : fs) : world := mkworld f (w_root w) (w_branches w) (w_base w) (w_log w) (w_attrs w) (w_steps w).
Example C84_listing_case : map fst (project_runs wildcard (after_two ab)) = [s "r2"; s "r1"] /\ map snd (project_branches wildcard (after_two ab)) = [[s "r2"; s "r1"]; [s "r2"; s "r1"]] /\
  map fst (project_branches wildcard (after_two ab)) = ab /\
  show_run wildcard (after_two ab) (s "r1") = Some [ex_root ++ [s "a"; s "runs"; s "r1"]; ex_root ++ [s "b"; s "runs"; s "r1"]] /\ show_run wildcard (after_two []) (s "r3") = None /\
  shown_runs wildcard (after_two []) [s "*"] = [s "r2"; s "r1"].
Proof. vm_compute. repeat split. Qed.
Example C84_file_case : let w := set_disk (after_two ab) (put (w_fs (after_two ab)) (ex_root ++ [s "a"; s "runs"; s "notes.txt"]) (File (Text []))) in
  show_run wildcard w (s "notes.txt") = Some [ex_root ++ [s "runs"; s "notes.txt"]] /\ exists_ (w_fs w) (ex_root ++ [s "runs"; s "notes.txt"]) = false.
Proof. vm_compute. split; reflexivity. Qed.
Example C84_reset_case : exists w', project_reset wildcard false (after_two ab) = (w', Ok tt) /\ project_runs wildcard w' = [] /\ log_contents w' <> None.
Proof. eexists. split; [vm_compute; reflexivity|]. split; [vm_compute; reflexivity|vm_compute; discriminate]. Qed.
Example C84_remove_case : exists w', project_remove false (after_two []) = (w', Ok tt) /\ exists_ (w_fs w') ex_root = false /\ exists_ (w_fs w') ex_home = true /\ w_root (after_two []) <> [] /\
  is_dir (w_fs (after_two [])) (w_root (after_two [])) = true.
Proof. eexists. split; [vm_compute; reflexivity|]. split; [vm_compute; reflexivity|]. split; [vm_compute; reflexivity|]. split; [vm_compute; discriminate|vm_compute; reflexivity]. Qed.
Example C84_name_case : let x := mkobject (ex_world [] 100) true None 0 in exists x', object_rename (ex_home ++ [s "other"]) false (fst (object_name x)) = (x', Ok tt) /\
  w_root (o_world x') = ex_home ++ [s "other"] /\ snd (object_name x') = s "prj".
Proof. eexists. split; [vm_compute; reflexivity|]. split; vm_compute; reflexivity. Qed.
Example C40_metadata_case : let d : list (str * json) := [(s "root", JStr (s "/home/prj")); (s "config", JNull); (s "branches", JList [JStr (s "a")])] in
  attribute d (s "root") = Some (JStr (s "/home/prj")) /\ optional_texts d (s "branches") (Some [s "a"]) /\ optional_text d (s "config") None /\ optional_text d (s "inputs") None /\
  restore [(ex_root ++ [s ".eprem.conf"], File (Json (JObj d)))] ex_root = Ok (mkattrs ex_root [s "a"] (s "eprem.cfg") (ex_root ++ [s "inputs"]) (s "eprem.log") (s "runs") (s "runs.json")).
Proof. split; [reflexivity|]. split; [exists [s "a"]; split; reflexivity|]. split; [reflexivity|]. split; [reflexivity|]. vm_compute. reflexivity. Qed.
Example C59_inputs_case : let f := put (w_fs (ex_world [] 100)) (ex_root ++ [s "inputs"; s "my.cfg"]) (File (Text (s "mass = 2"))) in
  exists (w : world) (a : attrs), open_project f (ex_home ++ [s "copy"]) (Some ex_root) nothing_given (Ok []) 9 = Ok w /\ restore f ex_root = Ok a /\ a_inputs a <> [] /\
  fs_get (w_fs w) (ex_home ++ [s "copy"; s "inputs"; s "my.cfg"]) = Some (File (Text (s "mass = 2"))).
Proof. do 2 eexists. split; [vm_compute; reflexivity|]. split; [vm_compute; reflexivity|]. split; [discriminate|vm_compute; reflexivity]. Qed.
Print Assumptions C84_runs.
Print Assumptions C84_runs_in_branches.
Print Assumptions C84_branches.
Print Assumptions C84_file_listed_refuted.
Print Assumptions C84_show.
Print Assumptions C84_show_star.
Print Assumptions C84_reset.
Print Assumptions C84_remove.
Print Assumptions C84_valid.
Print Assumptions C84_name.
Print Assumptions C84_name_refuted.
Print Assumptions C84_equality_refuted.
Print Assumptions C40_metadata.
Print Assumptions C40_defaults.
Print Assumptions C40_log_name.
Print Assumptions C40_damaged.
Print Assumptions C59_inputs_copied.
Print Assumptions C68_programs.
