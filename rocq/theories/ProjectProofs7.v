(** Renaming a project, histories and reopening, moving an unrecorded run. *)
From Verif Require Import PyBase PyLemmas ContainerModel ContainerSpec ContainerProofs ContainerProofs2
  FsModel FsProofs ProjectModel ProjectSpec ProjectProofs ProjectProofs2 ProjectProofs3 ProjectProofs5 ProjectProofs6.

(** ** Replacing a text by itself *)
Lemma str_prefix_some p : forall x r, str_prefix p x = Some r -> x = p ++ r.
Proof.
  induction p as [|a p IH]; intros x r H; cbn in H; [now injection H|].
  destruct x as [|b x]; [discriminate|]. destruct (Ascii.eqb_spec a b) as [->|]; [|discriminate]. cbn. f_equal. now apply IH.
Qed.
Lemma replace_same old : forall fuel x, replace_from fuel old old x = x.
Proof.
  induction fuel as [|fuel IH]; intros x; [reflexivity|]. cbn.
  destruct (str_prefix old x) as [r|] eqn:E.
  - rewrite IH. symmetry. now apply str_prefix_some.
  - destruct x; [reflexivity|]. now rewrite IH.
Qed.

(** ** Renaming *)
Lemma log_mv_result k k' w w' : log_mv k k' w = (w', Ok tt) ->
  exists d v, log_contents w = Some d /\ found d k = Some v
  /\ settings w' = settings w /\ log_contents w' = Some (dict_put str_eqb (without_key d k) k' v)
  /\ (forall z, z <> w_log w -> fs_get (w_fs w') z = fs_get (w_fs w) z).
Proof.
  unfold log_mv, mbind. unfold log_read, mbind, get, lift, read. cbn [fst snd].
  unfold log_contents at 1. destruct (fs_get (w_fs w) (w_log w)) as [[|c]|]; try discriminate.
  destruct c as [t|[| |[|x l]|d]]; try discriminate; cbn [ret raise].
  destruct (lookup str_eqb d k) as [v|e] eqn:E; [|discriminate]. intros H.
  pose proof (log_dump_result _ _ _ _ H) as (A & B & C). exists d, v.
  split; [reflexivity|]. split; [now apply lookup_found|]. auto.
Qed.

Lemma log_mv_all_same src keys : forall w w', log_mv_all src src keys w = (w', Ok tt) ->
  settings w' = settings w
  /\ (forall k, record_of w' k = record_of w k)
  /\ (forall z, z <> w_log w -> fs_get (w_fs w') z = fs_get (w_fs w) z)
  /\ (readable w -> readable w').
Proof.
  induction keys as [|k keys IH]; intros w w' H; cbn [log_mv_all] in H.
  - injection H as <-. auto.
  - unfold mbind in H. unfold str_replace in H. rewrite replace_same in H.
    destruct (log_mv k k w) as [w1 [[]|e]] eqn:E; [|discriminate].
    destruct (log_mv_result _ _ _ _ E) as (d & v & L1 & Fd & S1 & L2 & Fr).
    destruct (IH _ _ H) as (S2 & R2 & F2 & Rd2).
    assert (w_log w1 = w_log w) as EL by (unfold settings in S1; congruence).
    split; [congruence|]. split; [|split].
    + intros k'. rewrite R2, (record_found _ _ _ L1), (record_found _ _ _ L2), found_put, found_without.
      destruct (str_eqb k k') eqn:Ek; [|reflexivity]. apply str_eqb_eq in Ek as <-. now rewrite Fd.
    + intros z Hz. rewrite F2, Fr; [reflexivity|assumption|congruence].
    + intros _. apply Rd2. unfold readable. rewrite L2. discriminate.
Qed.

Lemma some_run_directory w : exists d, run_directory w d.
Proof.
  unfold run_directory. destruct (w_branches w) as [|b bs] eqn:E.
  - exists (w_root w ++ [w_base w]). now left.
  - exists (w_root w ++ [b; w_base w]). right. exists b. split; [now left|reflexivity].
Qed.
Lemma above_root w q : sound w -> within q (w_root w) -> fs_get (w_fs w) q = Some Dir.
Proof.
  intros Hs [r R]. destruct (some_run_directory w) as [d Hd]. apply is_dir_get.
  apply (sound_dirs w Hs d q Hd).
  destruct Hd as [[_ ->]|(b & _ & ->)]; rewrite R, <- app_assoc; now eexists.
Qed.

(** where [z] was before [root] was renamed to [new] *)
Definition before (root new z : path) (f : fs) : option node :=
  match strip_prefix new z with
  | Some r => fs_get f (root ++ r)
  | None => if at_or_below root z then None else fs_get f z
  end.

Lemma rename_result w w' new force x : sound w -> w_log w = w_root w ++ [x] -> x <> s ".eprem.conf" ->
  project_rename new force w = (w', Ok tt) ->
  exists_ (w_fs w) new = false /\ ~ within (w_root w) new /\ ~ within new (w_root w)
  /\ w_root w' = new /\ w_log w' = new ++ [x] /\ w_branches w' = w_branches w /\ w_base w' = w_base w /\ w_attrs w' = w_attrs w
  /\ (forall z, z <> new ++ [x] -> z <> conf new -> fs_get (w_fs w') z = before (w_root w) new z (w_fs w))
  /\ (forall k, record_of w' k = record_of w k)
  /\ exists d, fs_get (w_fs w) (conf (w_root w)) = Some (File (Json (JObj d)))
     /\ fs_get (w_fs w') (conf new) = Some (File (Json (JObj
              (dict_put str_eqb (without_key d (path_str (w_root w))) (s "root") (JStr (path_str new)))))).
Proof.
  intros Hs EL Nx H. unfold project_rename, mbind, get in H. cbn [fst snd] in H.
  destruct (exists_ (w_fs w) new && negb force) eqn:Ef; [discriminate|].
  destruct (paths_update_root new w) as [w1 [[]|e]] eqn:E1; [|discriminate].
  unfold paths_update_root, mbind, get in E1. cbn [fst snd] in E1.
  destruct (exists_ (w_fs w) new) eqn:Nn; [discriminate|].
  destruct (disk (fun f => rename f (w_root w) new) w) as [w1' [[]|e]] eqn:Ed; [|discriminate].
  destruct (disk_result _ _ _ _ Ed) as (f1 & Rn & Ef1 & S1). unfold set_root in E1. injection E1 as <-.
  destruct (rename_ok _ _ _ _ Rn) as (R1 & R2 & R3 & R4).
  assert (~ within new (w_root w)) as NW.
  { intros W. rewrite <- Nn in R2. apply exists_false in Nn. pose proof (above_root w new Hs W). congruence. }
  assert (w_root w <> []) as Nr by (intros E; apply R4; rewrite E; now exists new).
  pose proof (fun z => get_rename _ _ _ _ z Rn Nr NW) as G.
  change (forall z, fs_get f1 z = before (w_root w) new z (w_fs w)) in G.
  destruct (log_update_directory new _) as [w2 [[]|e]] eqn:E2; [|discriminate].
  unfold log_update_directory, mbind, get in E2. cbn [fst snd w_fs] in E2.
  destruct (negb (exists_ (w_fs w1') new)); [discriminate|]. destruct (negb (is_dir (w_fs w1') new)); [discriminate|].
  cbn [w_log set_log] in E2.
  replace (w_log w1') with (w_root w ++ [x]) in E2 by (unfold settings in S1; congruence).
  unfold name in E2. rewrite last_last in E2. unfold set_log in E2. cbn [w_fs w_root w_branches w_base w_attrs w_steps w_log] in E2.
  set (w3 := mkworld (w_fs w1') new (w_branches w1') (w_base w1') (new ++ [x]) (w_attrs w1') (w_steps w1')) in *.
  unfold parent in E2. rewrite removelast_last in E2.
  assert (new <> []) as Nnew by (intros ->; discriminate).
  assert (strip_prefix new (new ++ [x]) = Some [x]) as SP by now apply strip_prefix_some.
  destruct (sound_log_get w Hs) as [d0 G0].
  assert (log_contents w3 = Some d0) as L3.
  { unfold log_contents, w3. cbn [w_fs w_log]. rewrite Ef1, G. unfold before. rewrite SP, <- EL, G0. reflexivity. }
  assert (log_read w3 = (w3, Ok d0)) as Rd.
  { unfold log_read, mbind, get, lift, read. cbn. unfold log_contents in L3. cbn [w3 w_fs w_log] in L3.
    destruct (fs_get (w_fs w1') (new ++ [x])) as [[|[|[| | |d']]]|]; try discriminate. injection L3 as ->. reflexivity. }
  rewrite Rd in E2.
  destruct (log_mv_all_same _ _ _ _ E2) as (S2 & Rc2 & F2 & _).
  assert (forall k, record_of w3 k = record_of w k) as R3w.
  { intro k. rewrite (record_found _ _ _ L3). unfold record_of, log_contents. rewrite G0. reflexivity. }
  unfold update_metadata, mbind, get, lift in H.
  destruct (read (w_fs w2) (new ++ [s ".eprem.conf"])) as [c|e] eqn:Rc; [|discriminate].
  destruct c as [t|[| | |d]]; try discriminate.
  destruct (disk (fun f => write f (new ++ [s ".eprem.conf"]) (Text [])) w2) as [w4 [[]|e]] eqn:E4; [|discriminate].
  destruct (disk_result _ _ _ _ E4) as (f4 & W4 & Ef4 & S4).
  destruct (disk_result _ _ _ _ H) as (f5 & W5 & Ef5 & S5).
  apply write_ok in W4 as (-> & _). apply write_ok in W5 as (-> & _).
  fold (conf new) in *.
  assert (forall z, z <> conf new -> fs_get (w_fs w') z = fs_get (w_fs w2) z) as F5.
  { intros z Hz. rewrite Ef5, get_put_other, Ef4, get_put_other; auto; apply snoc_nonempty. }
  assert (settings w' = settings w3) as S' by congruence.
  assert (w_log w' = new ++ [x]) as EL' by (unfold settings in S'; unfold w3 in S'; cbn in S'; congruence).
  assert (new ++ [x] <> conf new) as Nxc by (intros C; apply app_inj_tail in C as [_ C]; contradiction).
  split; [assumption|]. split; [exact R4|]. split; [assumption|].
  split; [unfold settings in S'; unfold w3 in S'; cbn in S'; congruence|]. split; [assumption|].
  split; [unfold settings in S', S1; unfold w3 in S'; cbn in S'; congruence|].
  split; [unfold settings in S', S1; unfold w3 in S'; cbn in S'; congruence|].
  split; [unfold settings in S', S1; unfold w3 in S'; cbn in S'; congruence|].
  assert (forall z, z <> new ++ [x] -> fs_get (w_fs w2) z = before (w_root w) new z (w_fs w)) as F23.
  { intros z Hz. rewrite F2 by assumption. cbn [w3 w_fs]. rewrite Ef1. apply G. }
  split; [intros z Hz Hc; rewrite F5 by assumption; now apply F23|].
  split.
  - intro k. rewrite <- R3w, <- Rc2. unfold record_of, log_contents.
    replace (w_log w2) with (new ++ [x]) by (unfold settings in S2; unfold w3 in S2; cbn in S2; congruence).
    rewrite EL', F5; auto.
  - exists d. split.
    + unfold read in Rc. rewrite F23 in Rc by auto. unfold before in Rc.
      assert (strip_prefix new (conf new) = Some [s ".eprem.conf"]) as SC by now apply strip_prefix_some.
      rewrite SC in Rc. fold (conf (w_root w)) in Rc.
      destruct (fs_get (w_fs w) (conf (w_root w))) as [[|c]|]; try discriminate. now injection Rc as ->.
    + rewrite Ef5. apply get_put_same. apply snoc_nonempty.
Qed.

(** ** Histories *)
Lemma history_frame matches rs : forall w w' outs, sound w -> logged_runs_exist w -> Forall proper_request rs ->
  history matches rs w = (w', outs) -> Forall survived outs ->
  forall z, z <> w_log w -> (forall p, run_path w p -> ~ within p z) -> fs_get (w_fs w') z = fs_get (w_fs w) z.
Proof.
  induction rs as [|r rs IH]; intros w w' outs Hs Hl Hr E Ho z Nz Hz; cbn in E.
  - injection E as <- <-. reflexivity.
  - destruct (perform matches r w) as [w1 out] eqn:E1. destruct (history matches rs w1) as [w2 outs2] eqn:E2.
    injection E as <- <-. inversion Hr; inversion Ho; subst.
    destruct (perform_logged _ _ _ _ _ Hs Hl H1 E1 H5) as (A & B & C).
    destruct (perform_frame _ _ _ _ _ Hs H1 E1) as (_ & _ & Fr).
    rewrite (IH w1 w2 outs2 A B H2 E2 H6), Fr; auto.
    + unfold settings in C. congruence.
    + intros p Hp. apply Hz. now apply (settings_run_path w1 w p C).
Qed.

Lemma history_steps matches rs w w' outs f : history matches rs w = (w', outs) -> w_fs w' = f ->
  settings w' = settings w -> w' = mkworld f (w_root w) (w_branches w) (w_base w) (w_log w) (w_attrs w) (w_steps w').
Proof. intros _ <- E. unfold settings in E. destruct w'; cbn in *. congruence. Qed.

(** After any history the project that was created can be opened again. *)
Lemma reopen_history f p o script n w matches rs w' outs script' m : tree f -> plain_path p -> exists_ f p = false ->
  named_options o -> open_project f p None o script n = Ok w -> a_inputs (w_attrs w) <> p ->
  Forall proper_request rs -> history matches rs w = (w', outs) -> Forall survived outs ->
  open_project (w_fs w') p None nothing_given script' m
  = Ok (mkworld (w_fs w') (w_root w') (w_branches w') (w_base w') (w_log w') (w_attrs w') m).
Proof.
  intros T Pl Np No E Ni Hr Hh Ho.
  assert (proper_path p) as Pp by (eapply Forall_impl; [|exact Pl]; now intros a []).
  destruct (fresh_project f p o script n w T Pp Np No E) as (Hs & NoRun & Lc & Ea & Op & Ew & Pi).
  assert (logged_runs_exist w) as Hl.
  { intros k Hk Nk. exfalso. apply Hk. unfold record_of. rewrite Lc. cbn [find fst].
    destruct (str_eqb (s "config") k) eqn:E1; [apply str_eqb_eq in E1; exfalso; apply Nk; left; now symmetry|].
    destruct (str_eqb (s "output") k) eqn:E2; [apply str_eqb_eq in E2; exfalso; apply Nk; right; now symmetry|]. reflexivity. }
  destruct (history_logged matches rs w w' outs Hs Hl Hr Hh Ho) as (Hs' & _ & Es).
  pose proof (history_frame matches rs w w' outs Hs Hl Hr Hh Ho) as Fr.
  destruct (attrs_of_inv _ _ _ Ea) as (A1 & _ & _ & _ & _ & A6 & _ & _ & zz & _ & A9).
  set (a := w_attrs w) in *.
  assert (w_root w = p /\ w_branches w = a_branches a /\ w_base w = a_rundir a /\ w_log w = p ++ [a_logname a]) as (Er & Eb & Ebs & EL).
  { rewrite Ew. cbn. unfold log_path. now rewrite A1. }
  assert (forall d, run_directory w d -> exists y r, d = p ++ y :: r) as Dd.
  { intros d [[_ ->]|(b & _ & ->)]; rewrite Er; eexists; eexists; reflexivity. }
  assert (forall z q, length z <= length p + 1 -> run_path w q -> ~ within q z) as Short.
  { intros z q Hz (d & x & Hd & _ & _ & ->) [r R]. destruct (Dd d Hd) as (y & t & ->).
    apply (f_equal (@length _)) in R. rewrite ?app_length in R. cbn in R. rewrite ?app_length in R. cbn in R. lia. }
  assert (forall y, p ++ [y] <> w_log w -> fs_get (w_fs w') (p ++ [y]) = fs_get (w_fs w) (p ++ [y])) as G1.
  { intros y Ny. apply Fr; [assumption|]. intros q Hq. apply Short; [|assumption]. rewrite app_length. cbn. lia. }
  destruct Op as (O1 & O2 & O3 & O4 & O5). rewrite A1 in *.
  assert (opens a (w_fs w')) as Op'.
  { unfold opens. rewrite A1. split; [|split; [|split; [|split]]].
    - unfold conf. rewrite G1; [exact O1|]. rewrite EL. intros C. apply app_inj_tail in C as [_ C].
      rewrite A9 in C. apply (f_equal (@rev _)) in C. rewrite rev_app_distr in C. cbn in C. discriminate.
    - pose proof (sound_log_get w' Hs') as [d G]. replace (w_log w') with (w_log w) in G by (unfold settings in Es; congruence).
      rewrite Ew in G. cbn [world_of w_log] in G. fold a in G. rewrite G. discriminate.
    - intros d q Hd W. apply is_dir_get. apply (sound_dirs w' Hs' d q); [|assumption].
      apply (settings_run_directory w w' d); [congruence|].
      apply listing_iff; [apply Hs|]. unfold listing. rewrite Er, Eb, Ebs. exact Hd.
    - rewrite G1; [exact O4|]. rewrite EL. intros C. apply app_inj_tail in C as [_ C].
      rewrite A9 in C. apply (f_equal (@rev _)) in C. rewrite rev_app_distr in C. cbn in C. discriminate.
    - intros q W. rewrite Fr; [now apply O5| |].
      + intros ->. specialize (O5 _ W). pose proof (sound_log_get w Hs) as [d G]. congruence.
      + intros q0 Hq0. apply Short; [|assumption]. destruct W as [r W].
        apply (f_equal (@length _)) in W. rewrite app_length in W.
        destruct Pi as [Pi|[y Pi]]; rewrite Pi, ?app_length in W; cbn in W; lia. }
  rewrite <- A1 at 1.
  rewrite (opens_again a (w_fs w') o script' m); try (rewrite A1; assumption); [|assumption].
  unfold world_of. f_equal. unfold settings in Es. injection Es as E1 E2 E3 E4 E5.
  rewrite E1, E2, E3, E4, E5, Er, Eb, Ebs, EL. unfold log_path. now rewrite A1.
Qed.

(** ** Moving a run that has no record *)
Lemma move_unrecorded x y errors w d : sound w -> w_branches w = [] -> run_directory w d ->
  proper_name x -> proper_name y ->
  is_dir (w_fs w) (d ++ [x]) = true -> exists_ (w_fs w) (d ++ [y]) = false ->
  record_of w (path_str (d ++ [x])) = None -> 1 <= w_steps w ->
  exists w', project_mv x y [] errors w = (w', Raise log_key_error)
  /\ is_dir (w_fs w') (d ++ [y]) = true /\ exists_ (w_fs w') (d ++ [x]) = false
  /\ (forall k, record_of w' k = record_of w k).
Proof.
  intros Hs Hb Hd Hx Hy Dx Ny Nr St. unfold project_mv, mbind at 1, get.
  assert (define_two w x y [] = [(d ++ [x], d ++ [y])]) as ->.
  { unfold define_two, rundirs, listing, listing_of. rewrite Hb. cbn [map].
    destruct Hd as [[_ ->]|(b & Hin & _)]; [|rewrite Hb in Hin; destruct Hin].
    unfold join_local. destruct (w_base w) eqn:Eb; [|reflexivity]. pose proof (sound_base w Hs) as [C _]. congruence. }
  cbn [operate]. unfold mbind at 1. unfold op_mv. unfold mbind at 1, get.
  assert (exists_ (w_fs w) (d ++ [x]) = true) as Ex by (apply exists_get; apply is_dir_get in Dx; congruence).
  rewrite Ex, Dx, Ny. cbn [negb]. unfold mbind at 1. unfold disk, mbind, get, lift, set_fs. cbn [fst snd].
  assert (~ exists r, d ++ [y] = (d ++ [x]) ++ r) as Nb.
  { intros [r R]. rewrite <- app_assoc in R. apply app_inv_head in R. destruct r; [|destruct r; discriminate].
    cbn in R. injection R as ->. apply exists_false in Ny. apply is_dir_get in Dx. congruence. }
  assert (~ exists r, d ++ [x] = (d ++ [y]) ++ r) as Nb'.
  { intros [r R]. rewrite <- app_assoc in R. apply app_inv_head in R. destruct r; [|destruct r; discriminate].
    cbn in R. injection R as ->. apply exists_false in Ny. apply is_dir_get in Dx. congruence. }
  destruct (rename (w_fs w) (d ++ [x]) (d ++ [y])) as [f'|e] eqn:Rn.
  2: { exfalso. unfold rename in Rn. rewrite Ex, Ny, (proj2 (at_or_below_false _ _) Nb) in Rn. cbn [negb] in Rn.
       unfold parent in Rn. rewrite removelast_last in Rn.
       rewrite (sound_dirs w Hs d d Hd) in Rn by (exists []; now rewrite app_nil_r). discriminate. }
  pose proof (fun z => get_rename _ _ _ _ z Rn (snoc_nonempty _ _) Nb') as G.
  destruct (w_steps w) as [|n]; [lia|].
  set (w1 := mkworld f' (w_root w) (w_branches w) (w_base w) (w_log w) (w_attrs w) n).
  destruct (log_read_sound w Hs) as (dd & Rd & Ld).
  assert (fs_get f' (w_log w) = fs_get (w_fs w) (w_log w)) as GL.
  { rewrite G. rewrite (proj2 (strip_prefix_none _ _)), (proj2 (at_or_below_false _ _)); [reflexivity| |];
    intros [r R]; apply (sound_log_place w Hs d Hd); rewrite R, <- app_assoc; now eexists. }
  assert (log_contents w1 = Some dd) as L1.
  { unfold log_contents. cbn [w1 w_fs w_log]. rewrite GL. exact Ld. }
  exists w1. cbn [ret fst snd]. unfold log_mv, mbind.
  assert (log_read w1 = (w1, Ok dd)) as ->.
  { unfold log_read, mbind, get, lift, read. cbn. rewrite GL.
    unfold log_contents in Ld. destruct (fs_get (w_fs w) (w_log w)) as [[|[|[| | |d']]]|]; try discriminate. injection Ld as ->. reflexivity. }
  destruct (lookup str_eqb dd (path_str (d ++ [x]))) as [v|e] eqn:Lk.
  { exfalso. apply lookup_found in Lk. rewrite (record_found _ _ _ Ld) in Nr. congruence. }
  split; [reflexivity|]. cbn [w1 w_fs]. split; [|split].
  - apply is_dir_get. rewrite G. rewrite (proj2 (strip_prefix_some (d ++ [y]) (d ++ [y]) [])) by now rewrite app_nil_r.
    rewrite app_nil_r. now apply is_dir_get.
  - apply exists_false. rewrite G. rewrite (proj2 (strip_prefix_none _ _) Nb').
    rewrite (proj2 (at_or_below_iff (d ++ [x]) (d ++ [x]))); [reflexivity|]. exists []. now rewrite app_nil_r.
  - intro k. now rewrite (record_found _ _ _ L1), (record_found _ _ _ Ld).
Qed.
