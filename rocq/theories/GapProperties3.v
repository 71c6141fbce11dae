(** Further theorems of C83 (run log), C85 (constants), C88 (what a failed
    constructor leaves), C89 (paths on the command line) and C91 (printed tables). *)
From Coq Require Import Lia.
From Verif Require Import PyBase PyLemmas ContainerModel ContainerSpec ContainerProofs ContainerProofs2
  FsModel FsProofs ProjectModel ProjectSpec ProjectProofs ProjectProofs2 ProjectProofs3 ProjectProofs5 RunLogModel RunLogSpec ProjectProperties RunLogProperties ScriptModel ScriptProperties.

(** ** C88: the disk after the constructor *)

Lemma mkdirs_disk_ok f ps : (forall p, In p ps -> p <> []) -> extends f (mkdirs_disk f ps).
Proof.
  revert f. induction ps as [|p ps IH]; intros f N; cbn; [apply extends_refl|].
  destruct (mkdir f p true) as [f1|e] eqn:E; [|apply extends_refl].
  apply extends_trans with f1; [apply (extends_mkdir f p true f1); [apply N; now left|assumption]|].
  apply IH. intros q Hq. apply N. now right.
Qed.
Lemma mkdirs_disk_app f ps qs f1 : mkdirs f ps = Ok f1 -> mkdirs_disk f (ps ++ qs) = mkdirs_disk f1 qs.
Proof.
  revert f. induction ps as [|p ps IH]; intros f H; cbn in *; [congruence|].
  destruct (mkdir f p true) as [f2|e]; [|discriminate]. cbn in H. now apply IH.
Qed.

(** Whether or not it succeeds, the constructor changes and removes nothing that
    was on the disk. *)
Theorem C88_nothing_lost : forall f p o script,
  tree f -> proper_path p -> exists_ f p = false -> extends f (open_disk f p o script).
Proof.
  intros f p o script T Pp Np. unfold open_disk, init_project, get_attrs. rewrite Np. cbn [negb]. unfold create_project.
  destruct (attrs_of p o) as [a|e] eqn:Ea; [|apply extends_refl].
  destruct (attrs_of_inv _ _ _ Ea) as (A1 & A2 & A3 & A4 & A5 & A6 & A7 & A8 & z & Nz & A9).
  assert (p <> []) as Pne by (intros ->; discriminate).
  rewrite A1. destruct (mkdir f p false) as [f1|e] eqn:E1; [|apply extends_refl].
  pose proof (extends_mkdir _ _ _ _ Pne E1) as X1.
  destruct (write f1 (conf p) (Json (serial a))) as [f2|e] eqn:E2; [|exact X1].
  assert (fs_get f1 (conf p) = None) as C1.
  { destruct (fs_get f1 (conf p)) as [c|] eqn:G; [exfalso|reflexivity].
    destruct (mkdir_spec _ _ _ _ E1 Pne) as (_ & B & _ & _).
    assert (fs_get f (conf p) = Some c) as G0.
    { rewrite <- G. symmetry. apply B. intros (r & H). unfold conf in H. apply (f_equal (@length _)) in H. rewrite !app_length in H. cbn in H. lia. }
    apply exists_false in Np. apply (tree_prefix f (conf p) c T) with (b := [s ".eprem.conf"]) (a := p) in Np; [assumption| |reflexivity].
    apply entry_in. destruct (conf p) eqn:Q; [unfold conf in Q; apply app_eq_nil in Q as [_ Q]; discriminate|exact G0]. }
  assert (extends f f2) as X2 by (eapply extends_trans; [exact X1|exact (extends_write _ _ _ _ C1 E2)]).
  destruct (get_log f2 a) as [f3|e] eqn:E3; [|exact X2].
  assert (extends f f3) as X3.
  { unfold get_log in E3. destruct (exists_ f2 (log_path a)) eqn:G; [injection E3 as <-; exact X2|].
    apply exists_false in G. eapply extends_trans; [exact X2|exact (extends_write _ _ _ _ G E3)]. }
  assert (forall d0, In d0 (listing_of p (a_branches a) (a_rundir a)) -> d0 <> []) as Dn.
  { intros d0 Hd. unfold listing_of, join_local in Hd. destruct (a_branches a).
    - destruct Hd as [<-|[]]. destruct (a_rundir a); [assumption|]. apply snoc_nonempty.
    - apply in_map_iff in Hd as (b & <- & _). destruct (a_rundir a); apply snoc_nonempty. }
  cbv zeta. rewrite ?A1. destruct (mkdirs f3 (listing_of p (a_branches a) (a_rundir a))) as [f4|e] eqn:E4.
  - destruct (mkdirs_spec _ _ _ Dn E4) as (X4 & _). assert (extends f f4) as X5 by (eapply extends_trans; eassumption).
    unfold setup_cli. rewrite ?A1. destruct (exists_ f4 (p ++ [s "__main__.py"])) eqn:G.
    + destruct (mkdir f4 (a_inputs a) true) as [f6|e] eqn:E6; [|exact X5].
      eapply extends_trans; [exact X5|]. apply (extends_mkdir _ (a_inputs a) true); [|exact E6].
      rewrite A4. unfold join_local. destruct (localize (or_str (o_inputs o) (s "inputs"))); [assumption|]. apply snoc_nonempty.
    + destruct script as [t|e]; cbn [bind]; [|exact X5].
      destruct (write f4 (p ++ [s "__main__.py"]) (Text t)) as [f5|e] eqn:E5; [|exact X5].
      apply exists_false in G. assert (extends f f5) as X6 by (eapply extends_trans; [exact X5|exact (extends_write _ _ _ _ G E5)]).
      destruct (mkdir f5 (a_inputs a) true) as [f6|e] eqn:E6; [|exact X6].
      eapply extends_trans; [exact X6|]. apply (extends_mkdir _ (a_inputs a) true); [|exact E6].
      rewrite A4. unfold join_local. destruct (localize (or_str (o_inputs o) (s "inputs"))); [assumption|]. apply snoc_nonempty.
  - eapply extends_trans; [exact X3|]. apply mkdirs_disk_ok. exact Dn.
Qed.
Print Assumptions C88_nothing_lost.

(** A branch with the name of the settings file: the constructor fails, and leaves
    the directories of the branches before it. *)
Example C88_refused_branch_case :
  let f := [([s "home"], Dir)] in let p := [s "home"; s "p"] in
  let o := mkoptions (Some [s "a"; s ".eprem.conf"; s "b"]) None None None None None in
  open_project f p None o (Ok (s "x")) 9 = Raise (OtherError "NotADirectoryError") /\
  let f' := open_disk f p o (Ok (s "x")) in
  is_dir f' (p ++ [s "a"; s "runs"]) = true /\ exists_ f' (p ++ [s "b"]) = false /\ exists_ f' (p ++ [s "inputs"]) = false /\
  exists_ f' (p ++ [s "__main__.py"]) = false /\ is_file f' (p ++ [s "runs.json"]) = true.
Proof. vm_compute. repeat split; reflexivity. Qed.

(** ** C83: loading a file that holds nothing, or something other than an object *)
Theorem C83_load_nothing : forall w h y key source filetype j, usable w -> fs_get (w_fs w) source = Some (File (Json j)) ->
  type_text (s "json") (match filetype with Some (c :: t) => c :: t | _ => RunLogModel.suffix (name source) end) ->
  (j = JNull \/ j = JStr [] \/ j = JList [] ->
   exists w' r, log_load_file h y key source filetype w = (w', Ok tt) /\ readable w' /\ only_the_log w w' /\
     record_of w' key = Some (JObj r) /\ same_records_but w w' [key] /\ forall k, attribute r k = record_of w k) /\
  (forall t, j = JStr t -> t <> [] -> log_load_file h y key source filetype w = (w, Raise ValueError)) /\
  (forall l, j = JList l -> l <> [] -> log_load_file h y key source filetype w = (w, Raise ValueError)).
Proof.
  intros w h y key source filetype j Us Sf Ty. destruct (readable_some w (proj1 Us)) as (d & C).
  assert (El : source_loader h (or_str filetype (RunLogModel.suffix (name source))) = Ok LJson) by (apply C83_load_types; destruct filetype as [[|c t]|]; exact Ty).
  assert (R : log_load_file h y key source filetype w = (contents <<- lift (update_with d j) ;; log_dump (dict_put str_eqb d key (JObj contents))) w).
  { unfold log_load_file, mbind. rewrite (log_read_ok w d C), (log_read_ok w d C). unfold lift, get. rewrite El. unfold read. rewrite Sf. reflexivity. }
  rewrite R. split; [|split].
  - intros Hj. assert (update_with d j = Ok d) as -> by (destruct Hj as [->|[->| ->]]; reflexivity).
    unfold mbind, lift. destruct (put_ok w d key (JObj d) Us C) as (w' & E & Rd & O & R1 & R2). exists w', d.
    split; [exact E|]. split; [exact Rd|]. split; [exact O|]. split; [exact R1|]. split; [exact R2|].
    intros k. rewrite (record_in _ _ _ C). reflexivity.
  - intros t -> N. destruct t; [contradiction|reflexivity].
  - intros l -> N. destruct l; [contradiction|reflexivity].
Qed.
Print Assumptions C83_load_nothing.

(** The type of a file is what follows the last dot of its name, with the dot; a
    name has none if it has no dot, or begins or ends with its last dot. *)
Theorem C83_suffix : forall x t, ~ In "."%char t ->
  (x <> [] -> t <> [] -> RunLogModel.suffix (x ++ s "." ++ t) = s "." ++ t) /\
  RunLogModel.suffix t = [] /\ RunLogModel.suffix (s "." ++ t) = [] /\ RunLogModel.suffix (x ++ s ".") = [].
Proof.
  intros x t N.
  assert (N0 : forall u, ~ In "."%char u -> rfind "."%char u = None).
  { induction u as [|c u IH]; intros H; [reflexivity|]. cbn [rfind]. rewrite IH by (intros I; apply H; now right).
    destruct (Ascii.eqb_spec c "."%char) as [->|]; [exfalso; apply H; now left|reflexivity]. }
  assert (N1 : rfind "."%char (s "." ++ t) = Some O) by (cbn [app s list_ascii_of_string rfind]; rewrite (N0 t N); reflexivity).
  unfold RunLogModel.suffix. split; [|split; [|split]].
  - intros Nx Nt. rewrite (rfind_app _ x _ O N1), Nat.add_0_r.
    assert (0 < length x) as Px by (destruct x; [contradiction|cbn; lia]). assert (0 < length t) as Pt by (destruct t; [contradiction|cbn; lia]).
    rewrite (proj2 (Nat.ltb_lt 0 (length x)) Px). rewrite !app_length. change (length (s ".")) with 1.
    assert (length x < length x + (1 + length t) - 1) as L by lia. rewrite (proj2 (Nat.ltb_lt _ _) L). cbn [andb].
    rewrite skipn_app, Nat.sub_diag, skipn_all. reflexivity.
  - rewrite (N0 t N). reflexivity.
  - rewrite N1. reflexivity.
  - rewrite (rfind_app _ x (s ".") O) by reflexivity. rewrite Nat.add_0_r, app_length. change (length (s ".")) with 1.
    replace (length x + 1 - 1) with (length x) by lia. rewrite Nat.ltb_irrefl, Bool.andb_false_r. reflexivity.
Qed.
Print Assumptions C83_suffix.
Example C83_suffix_case : RunLogModel.suffix (s "run.one.json") = s ".json" /\ RunLogModel.suffix (s "json") = [] /\ RunLogModel.suffix (s ".json") = [] /\ RunLogModel.suffix (s "runs.") = [].
Proof. repeat split. Qed.
