(** Properties C36-C40, C57-C59: projects on disk. *)
From Verif Require Import PyBase PyLemmas ContainerModel ContainerSpec ContainerProofs ContainerProofs2
  FsModel FsProofs ProjectModel ProjectSpec ProjectProofs ProjectProofs2 ProjectProofs3 ProjectProofs4
  ProjectProofs5 ProjectProofs6 ProjectProofs7.

(** ** A concrete project: two branches *)
Definition ex_home : path := [s "home"].
Definition ex_fs : fs := [(ex_home ++ [s "eprem.cfg"], File (Text (s "mass = 1"))); (ex_home, Dir)].
Definition ex_root : path := ex_home ++ [s "prj"].
Definition ex_options (branches : list str) : options := mkoptions (Some branches) None None None None None.
Definition ex_outside (code : Z) : outside :=
  mkoutside (fun _ => None) (fun _ => Some [s "bin"]) ex_home (fun _ => [(s "obs000.nc", [])]) (fun _ => code) (s "noon").
Definition ex_run (code : Z) (x : str) : request := Run (ex_outside code) [s "eprem.cfg"] x [] (s "4") true.
Definition ex_world (branches : list str) (n : nat) : world :=
  match open_project ex_fs ex_root None (ex_options branches) (Ok []) n with Ok w => w | Raise _ => mkworld [] [] [] [] [] (mkattrs [] [] [] [] [] [] []) 0 end.
Definition ab : list str := [s "a"; s "b"].

Lemma ex_tree : tree ex_fs.
Proof.
  intros p n [H|[H|[]]]; injection H as <- _; (split; [|reflexivity]);
  repeat constructor; try discriminate; cbn; intuition discriminate.
Qed.
Lemma ex_plain : plain_path ex_root.
Proof. repeat constructor; try discriminate; cbn; intuition discriminate. Qed.
Lemma ex_proper : proper_path ex_root.
Proof. repeat constructor; try discriminate; cbn; intuition discriminate. Qed.
Lemma ex_named bs : Forall proper_name bs -> named_options (ex_options bs).
Proof.
  intros H. split; [exact H|]. split; [|split; discriminate].
  split; [discriminate|]. cbn. intuition discriminate.
Qed.
Lemma ex_ab : Forall proper_name ab.
Proof. repeat constructor; try discriminate; cbn; intuition discriminate. Qed.
Lemma ex_request code x : proper_name x -> proper_request (ex_run code x).
Proof.
  intros H. split; [exact H|]. intros p y t [E|[]]. injection E as <- _. split; [discriminate|]. cbn. intuition discriminate.
Qed.
Ltac name_ok := split; [discriminate|]; let C := fresh in intro C; cbn in C; repeat (destruct C as [C|C]; [discriminate|]); destruct C.
Ltac requests_ok := repeat first [apply Forall_nil | apply Forall_cons];
  first [exact I | apply ex_request; name_ok | split; name_ok].

(** ** C36: the log and the run directories *)

(** Whatever happens - simulations that fail, refused requests, missing files,
    errors of the operating system - every run in the log is a directory. *)
Theorem C36_logged_runs_exist : forall matches rs w w' outs,
  sound w -> logged_runs_exist w -> Forall proper_request rs ->
  history matches rs w = (w', outs) -> Forall survived outs ->
  sound w' /\ logged_runs_exist w'.
Proof. intros. destruct (history_logged matches rs w w' outs) as (A & B & _); auto. Qed.
Print Assumptions C36_logged_runs_exist.

(** If moreover the simulations succeed and each request succeeds or is refused,
    the runs in the log are exactly the run directories. *)
Theorem C36_log_mirrors_runs : forall matches rs w w' outs,
  sound w -> logged_runs_exist w -> existing_runs_logged w ->
  Forall proper_request rs -> Forall simulation_succeeds rs ->
  history matches rs w = (w', outs) -> Forall done_or_refused outs ->
  sound w' /\ logged_runs_exist w' /\ existing_runs_logged w'.
Proof. intros. destruct (history_mirror matches rs w w' outs) as (A & B & C & _); auto. Qed.
Print Assumptions C36_log_mirrors_runs.

(** Every project that is created in a new directory starts in such a state. *)
Theorem C36_new_project : forall f p o script n w,
  tree f -> proper_path p -> exists_ f p = false -> named_options o ->
  open_project f p None o script n = Ok w ->
  sound w /\ logged_runs_exist w /\ existing_runs_logged w
  /\ forall q, run_path w q -> exists_ (w_fs w) q = false.
Proof.
  intros f p o script n w T Pp Np No E.
  destruct (fresh_project f p o script n w T Pp Np No E) as (Hs & NoRun & Lc & _).
  split; [assumption|]. split; [|split; [|assumption]].
  - intros k Hk Nk. exfalso. apply Hk. unfold record_of. rewrite Lc. cbn [find fst].
    destruct (str_eqb (s "config") k) eqn:E1; [apply str_eqb_eq in E1; exfalso; apply Nk; left; now symmetry|].
    destruct (str_eqb (s "output") k) eqn:E2; [apply str_eqb_eq in E2; exfalso; apply Nk; right; now symmetry|]. reflexivity.
  - intros q Hq Dq. specialize (NoRun q Hq). apply is_dir_get in Dq. apply exists_false in NoRun. congruence.
Qed.
Print Assumptions C36_new_project.

Example C36_example : exists w w' outs,
  open_project ex_fs ex_root None (ex_options ab) (Ok []) 100 = Ok w
  /\ history wildcard [ex_run 0 (s "r1"); ex_run 0 (s "r2"); Mv (s "r1") (s "r3") [s "a"] true; Rm (s "r2") [] true; ex_run 0 (s "r3")] w = (w', outs)
  /\ outs = [Ok tt; Ok tt; Ok tt; Ok tt; Raise operation_error]
  /\ record_of w' (path_str (ex_root ++ [s "a"; s "runs"; s "r3"])) <> None
  /\ record_of w' (path_str (ex_root ++ [s "a"; s "runs"; s "r1"])) = None
  /\ record_of w' (path_str (ex_root ++ [s "b"; s "runs"; s "r1"])) <> None
  /\ sound w' /\ logged_runs_exist w' /\ existing_runs_logged w'.
Proof.
  exists (ex_world ab 100).
  assert (open_project ex_fs ex_root None (ex_options ab) (Ok []) 100 = Ok (ex_world ab 100)) as E by (vm_compute; reflexivity).
  destruct (C36_new_project _ _ _ _ _ _ ex_tree ex_proper eq_refl (ex_named ab ex_ab) E) as (Hs & Hl & He & _).
  destruct (history wildcard _ (ex_world ab 100)) as [w' outs] eqn:H.
  exists w', outs.
  assert (outs = [Ok tt; Ok tt; Ok tt; Ok tt; Raise operation_error]) as Eo.
  { pose proof (f_equal snd H) as H2. cbn [snd] in H2. rewrite <- H2. vm_compute. reflexivity. }
  assert (forall k, record_of (fst (w', outs)) k = record_of w' k) as Rk by reflexivity.
  split; [exact E|]. split; [reflexivity|]. split; [exact Eo|].
  split; [rewrite <- Rk, <- H; vm_compute; discriminate|].
  split; [rewrite <- Rk, <- H; vm_compute; reflexivity|].
  split; [rewrite <- Rk, <- H; vm_compute; discriminate|].
  refine (C36_log_mirrors_runs wildcard _ _ _ _ Hs Hl He _ _ H _).
  - requests_ok.
  - repeat first [apply Forall_nil | apply Forall_cons]; try exact I; intro; reflexivity.
  - rewrite Eo. repeat first [apply Forall_nil | apply Forall_cons]; try (left; reflexivity). right. reflexivity.
Qed.

(** ** C37: what each request does, branch by branch *)

Lemma Inv_refl w : sound w -> logged_runs_exist w -> Inv w w.
Proof. intros. split; [reflexivity|]. now split. Qed.

Lemma one_untouched w w' (p : path) : quiet one_foot w w' p -> untouched w w' p.
Proof. intros H. apply H. now left. Qed.

(** Moving: a request that succeeds moves, in each selected directory, the run
    [x] with everything in it and its record to [y], if [x] is there and [y] is
    not; all other runs stay as they are.  With [errors] all must be possible. *)
Theorem C37_mv : forall x y bs errors w w',
  sound w -> logged_runs_exist w -> proper_name x -> proper_name y ->
  project_mv x y bs errors w = (w', Ok tt) ->
  (forall d, run_directory w d ->
     (selected w bs d -> is_dir (w_fs w) (d ++ [x]) = true -> exists_ (w_fs w) (d ++ [y]) = false ->
        moved w w' (d ++ [x]) (d ++ [y]))
     /\ (~ selected w bs d \/ is_dir (w_fs w) (d ++ [x]) = false \/ exists_ (w_fs w) (d ++ [y]) = true ->
        untouched w w' (d ++ [x]) /\ untouched w w' (d ++ [y])))
  /\ (forall p, run_path w p -> name p <> x -> name p <> y -> untouched w w' p)
  /\ (errors = true -> forall d, selected w bs d ->
        is_dir (w_fs w) (d ++ [x]) = true /\ exists_ (w_fs w) (d ++ [y]) = false).
Proof.
  intros x y bs errors w w' Hs Hl Hx Hy E.
  destruct (mv_all w Hs x y Hx Hy bs errors w w' (Ok tt) (Inv_refl w Hs Hl) E) as (ps & HU & Hsel & Hall & Ch).
  destruct (mv_chain_result w Hs x y Hx Hy _ _ _ _ HU Ch) as (R1 & (R2 & R2') & R3).
  assert (forall d, mv_can w (d ++ [x], d ++ [y]) = true <-> is_dir (w_fs w) (d ++ [x]) = true /\ exists_ (w_fs w) (d ++ [y]) = false) as MC.
  { intro d. unfold mv_can. cbn [fst snd]. rewrite andb_true_iff, negb_true_iff. tauto. }
  split; [|split].
  - intros d Hd. destruct (R1 (d ++ [x], d ++ [y])) as [A B]; [now exists d|]. split.
    + intros Sd Dx Ny. apply A; [now apply Hall|]. now apply MC.
    + intros C. assert (quiet mv_foot w w' (d ++ [x], d ++ [y])) as Q.
      { apply B. destruct C as [C|C].
        - left. intros Hin. apply C. destruct (Hsel _ Hin) as (d' & Sd & Ed). injection Ed as Ed _.
          apply app_inj_tail in Ed as [-> _]. exact Sd.
        - right. destruct (mv_can w (d ++ [x], d ++ [y])) eqn:M; [|reflexivity]. apply MC in M. destruct C; destruct M; congruence. }
      split; apply Q; [now left|right; now left].
  - intros p (d & z & Hd & Nz & Sz & ->) Nx Ny. unfold name in Nx, Ny. rewrite last_last in Nx, Ny.
    assert (forall q, In q (flat_map mv_foot ps) -> exists d' u, run_directory w d' /\ (u = x \/ u = y) /\ q = d' ++ [u]) as Fq.
    { intros q Hq. apply in_flat_map in Hq as (a & Ha & Hq). destruct (HU a Ha) as (d' & Hd' & ->).
      destruct Hq as [<-|[<-|[]]]; exists d'; [exists x|exists y]; auto. }
    assert (RP (run_directory w) (d ++ [z])) as Rz by (exists d, z; split; [assumption|now split]).
    split.
    + intro r. apply R2; [now apply (rp_log w Hs)|]. intros q Hq. destruct (Fq q Hq) as (d' & u & Hd' & Hu & ->).
      apply (rp_apart w); [assumption| |].
      * exists d', u. split; [assumption|]. split; [|reflexivity]. destruct Hu; subst; assumption.
      * intros C. apply app_inj_tail in C as [_ C]. destruct Hu; subst; contradiction.
    + apply R2'. intros q Hq C. destruct (Fq q Hq) as (d' & u & Hd' & Hu & ->).
      apply (rp_str w Hs) in C; [|assumption|].
      * apply app_inj_tail in C as [_ C]. destruct Hu; subst; contradiction.
      * exists d', u. split; [assumption|]. split; [|reflexivity]. destruct Hu; subst; assumption.
  - intros He d Hd. apply MC. apply R3; [rewrite He; reflexivity|]. now apply Hall.
Qed.
Print Assumptions C37_mv.

(** A refused move: in every directory the run is either moved or untouched, and
    the request was refused because of one that could not be moved. *)
Theorem C37_mv_refused : forall x y bs errors w w',
  sound w -> logged_runs_exist w -> proper_name x -> proper_name y ->
  project_mv x y bs errors w = (w', Raise operation_error) ->
  errors = true
  /\ (forall d, run_directory w d ->
        moved w w' (d ++ [x]) (d ++ [y]) /\ selected w bs d
        \/ untouched w w' (d ++ [x]) /\ untouched w w' (d ++ [y]))
  /\ (forall p, run_path w p -> name p <> x -> name p <> y -> untouched w w' p)
  /\ exists d, selected w bs d /\ (is_dir (w_fs w') (d ++ [x]) = false \/ exists_ (w_fs w') (d ++ [y]) = true).
Proof.
  intros x y bs errors w w' Hs Hl Hx Hy E.
  destruct (mv_all w Hs x y Hx Hy bs errors w w' _ (Inv_refl w Hs Hl) E) as (ps & HU & Hsel & Hall).
  destruct (Hall eq_refl) as (He & Ch & d0 & Sd0 & C0).
  destruct (mv_chain_result w Hs x y Hx Hy _ _ _ _ HU Ch) as (R1 & (R2 & R2') & R3).
  split; [assumption|]. split; [|split].
  - intros d Hd. destruct (R1 (d ++ [x], d ++ [y])) as [A B]; [now exists d|].
    destruct (in_dec pair_eq_dec (d ++ [x], d ++ [y]) ps) as [Hin|Nin].
    + left. split; [apply A; [assumption|]; now apply R3|]. destruct (Hsel _ Hin) as (d' & Sd & Ed). injection Ed as Ed _.
      apply app_inj_tail in Ed as [-> _]. exact Sd.
    + right. assert (quiet mv_foot w w' (d ++ [x], d ++ [y])) as Q by (apply B; now left).
      split; apply Q; [now left|right; now left].
  - intros p (d & z & Hd & Nz & Sz & ->) Nx Ny. unfold name in Nx, Ny. rewrite last_last in Nx, Ny.
    assert (forall q, In q (flat_map mv_foot ps) -> exists d' u, run_directory w d' /\ (u = x \/ u = y) /\ q = d' ++ [u]) as Fq.
    { intros q Hq. apply in_flat_map in Hq as (a & Ha & Hq). destruct (HU a Ha) as (d' & Hd' & ->).
      destruct Hq as [<-|[<-|[]]]; exists d'; [exists x|exists y]; auto. }
    assert (RP (run_directory w) (d ++ [z])) as Rz by (exists d, z; split; [assumption|now split]).
    split.
    + intro r. apply R2; [now apply (rp_log w Hs)|]. intros q Hq. destruct (Fq q Hq) as (d' & u & Hd' & Hu & ->).
      apply (rp_apart w); [assumption| |].
      * exists d', u. split; [assumption|]. split; [|reflexivity]. destruct Hu; subst; assumption.
      * intros C. apply app_inj_tail in C as [_ C]. destruct Hu; subst; contradiction.
    + apply R2'. intros q Hq C. destruct (Fq q Hq) as (d' & u & Hd' & Hu & ->).
      apply (rp_str w Hs) in C; [|assumption|].
      * apply app_inj_tail in C as [_ C]. destruct Hu; subst; contradiction.
      * exists d', u. split; [assumption|]. split; [|reflexivity]. destruct Hu; subst; assumption.
  - exists d0. split; [assumption|]. unfold mv_can in C0. cbn [fst snd] in C0. apply andb_false_iff in C0 as [C0|C0]; [now left|].
    right. now apply negb_false_iff in C0.
Qed.
Print Assumptions C37_mv_refused.

(** Removing: exactly the runs of the selected directories whose names match the
    pattern (the empty pattern counts as [*]) disappear with their records. *)
Theorem C37_rm : forall matches pattern bs errors w w',
  sound w -> logged_runs_exist w ->
  project_rm matches pattern bs errors w = (w', Ok tt) ->
  forall d x, run_directory w d -> proper_name x ->
  (selected w bs d -> matches (match pattern with [] => s "*" | _ => pattern end) x = true ->
     exists_ (w_fs w) (d ++ [x]) = true -> removed w w' (d ++ [x]))
  /\ (~ selected w bs d \/ matches (match pattern with [] => s "*" | _ => pattern end) x = false ->
     untouched w w' (d ++ [x])).
Proof.
  intros matches pattern bs errors w w' Hs Hl E d x Hd Hx. fold (star pattern).
  destruct (rm_all w Hs matches pattern bs errors w w' _ (Inv_refl w Hs Hl) E) as (ps & HU & Hsel & Hall & Ch).
  destruct (rm_chain_result w Hs _ _ _ _ HU Ch) as (R1 & _ & _).
  assert (RP (run_directory w) (d ++ [x])) as Rp by (exists d, x; split; [assumption|now split]).
  destruct (R1 _ Rp) as [A B]. split.
  - intros Sd Mx Ex. apply A; [now apply Hall|]. unfold rm_can. apply (sound_runs w Hs); [|assumption].
    exists d, x. split; [assumption|]. split; [apply Hx|]. split; [apply Hx|reflexivity].
  - intros C. apply one_untouched. apply B. left. intros Hin. destruct (Hsel _ Hin) as (d' & x' & Sd & Ed & Mx & _).
    apply app_inj_tail in Ed as [<- <-]. destruct C; [contradiction|congruence].
Qed.
Print Assumptions C37_rm.

(** A refused removal: every run is either removed or untouched.  (In a sound
    project a removal is never refused: what is listed is there.) *)
Theorem C37_rm_refused : forall matches pattern bs errors w w',
  sound w -> logged_runs_exist w ->
  project_rm matches pattern bs errors w = (w', Raise operation_error) ->
  forall p, run_path w p -> removed w w' p \/ untouched w w' p.
Proof.
  intros matches pattern bs errors w w' Hs Hl E p Hp. apply ofw_run_path in Hp.
  destruct (rm_all w Hs matches pattern bs errors w w' _ (Inv_refl w Hs Hl) E) as (ps & HU & Hsel & Hall).
  destruct (Hall eq_refl) as (He & Ch). destruct (rm_chain_result w Hs _ _ _ _ HU Ch) as (R1 & _ & R3).
  destruct (R1 p Hp) as [A B]. destruct (in_dec path_eq_dec p ps) as [Hin|Nin].
  - left. apply A; [assumption|]. now apply R3.
  - right. apply one_untouched. apply B. now left.
Qed.
Print Assumptions C37_rm_refused.

(** Running: in each selected directory where [x] is not there yet, a run
    directory is made; it is recorded if and only if the simulation ends well;
    all other runs stay as they are. *)
Theorem C37_run : forall o config x bs nproc errors w w',
  sound w -> logged_runs_exist w -> proper_request (Run o config x bs nproc errors) ->
  project_run o config x bs nproc errors w = (w', Ok tt) ->
  (forall d, run_directory w d ->
     (selected w bs d -> exists_ (w_fs w) (d ++ [x]) = false -> attempted o w w' (d ++ [x]))
     /\ (~ selected w bs d \/ exists_ (w_fs w) (d ++ [x]) = true -> untouched w w' (d ++ [x])))
  /\ (forall p, run_path w p -> name p <> x -> untouched w w' p)
  /\ (errors = true -> forall d, selected w bs d -> exists_ (w_fs w) (d ++ [x]) = false).
Proof.
  intros o config x bs nproc errors w w' Hs Hl [Hx Hf] E.
  destruct (run_all w Hs o config x bs nproc errors w w' _ Hx Hf (Inv_refl w Hs Hl) E) as (ps & HU & Hsel & Hall & Ch).
  destruct (run_chain_result w Hs o _ _ _ _ HU Ch) as (R1 & _ & R3).
  split; [|split].
  - intros d Hd. assert (RP (run_directory w) (d ++ [x])) as Rp by (exists d, x; split; [assumption|now split]).
    destruct (R1 _ Rp) as [A B]. split.
    + intros Sd Ne. apply A; [now apply Hall|]. unfold run_can. now rewrite Ne.
    + intros C. apply one_untouched. apply B. destruct C as [C|C]; [left|right; unfold run_can; now rewrite C].
      intros Hin. destruct (Hsel _ Hin) as (d' & Sd & Ed). apply app_inj_tail in Ed as [<- _]. contradiction.
  - intros p Hp Nx. apply ofw_run_path in Hp. destruct (R1 p Hp) as [_ B]. apply one_untouched. apply B. left.
    intros Hin. destruct (Hsel _ Hin) as (d & _ & ->). unfold name in Nx. now rewrite last_last in Nx.
  - intros He d Sd. specialize (R3 (f_equal negb He) (d ++ [x]) (Hall d Sd)). unfold run_can in R3. now apply negb_true_iff in R3.
Qed.
Print Assumptions C37_run.

Theorem C37_run_refused : forall o config x bs nproc errors w w',
  sound w -> logged_runs_exist w -> proper_request (Run o config x bs nproc errors) ->
  project_run o config x bs nproc errors w = (w', Raise operation_error) ->
  errors = true
  /\ (forall p, run_path w p -> attempted o w w' p /\ name p = x \/ untouched w w' p)
  /\ exists d, selected w bs d /\ exists_ (w_fs w') (d ++ [x]) = true.
Proof.
  intros o config x bs nproc errors w w' Hs Hl [Hx Hf] E.
  destruct (run_all w Hs o config x bs nproc errors w w' _ Hx Hf (Inv_refl w Hs Hl) E) as (ps & HU & Hsel & Hall).
  destruct (Hall eq_refl) as (He & Ch & d0 & Sd0 & C0).
  destruct (run_chain_result w Hs o _ _ _ _ HU Ch) as (R1 & _ & R3).
  split; [assumption|]. split.
  - intros p Hp. apply ofw_run_path in Hp. destruct (R1 p Hp) as [A B].
    destruct (in_dec path_eq_dec p ps) as [Hin|Nin].
    + left. split; [apply A; [assumption|]; now apply R3|]. destruct (Hsel _ Hin) as (d & _ & ->). unfold name. now rewrite last_last.
    + right. apply one_untouched. apply B. now left.
  - exists d0. split; [assumption|]. unfold run_can in C0. now apply negb_false_iff in C0.
Qed.
Print Assumptions C37_run_refused.

(** The property fails for errors other than a refusal: a run directory without a
    record (C39 shows how it arises) is moved, and then the request raises, so
    that the branches after it are not processed. *)
Theorem C37_unrecorded_run_refuted : exists w w',
  sound w /\ logged_runs_exist w
  /\ project_mv (s "r1") (s "r2") [] false w = (w', Raise log_key_error)
  /\ is_dir (w_fs w') (ex_root ++ [s "a"; s "runs"; s "r2"]) = true
  /\ record_of w' (path_str (ex_root ++ [s "a"; s "runs"; s "r2"])) = None
  /\ is_dir (w_fs w') (ex_root ++ [s "b"; s "runs"; s "r1"]) = true
  /\ is_dir (w_fs w') (ex_root ++ [s "b"; s "runs"; s "r2"]) = false.
Proof.
  set (o := mkoutside (fun _ => None) (fun _ => Some [s "bin"]) ex_home (fun _ => []) (fun p => if str_eqb (name (parent (parent p))) (s "a") then 1%Z else 0%Z) (s "noon")).
  assert (open_project ex_fs ex_root None (ex_options ab) (Ok []) 100 = Ok (ex_world ab 100)) as E by (vm_compute; reflexivity).
  destruct (C36_new_project _ _ _ _ _ _ ex_tree ex_proper eq_refl (ex_named ab ex_ab) E) as (Hs & Hl & He & _).
  destruct (history wildcard [Run o [s "eprem.cfg"] (s "r1") [] (s "4") true] (ex_world ab 100)) as [w outs] eqn:H.
  exists w, (fst (project_mv (s "r1") (s "r2") [] false w)).
  assert (w = fst (history wildcard [Run o [s "eprem.cfg"] (s "r1") [] (s "4") true] (ex_world ab 100))) as Ew by now rewrite H.
  assert (outs = [Ok tt]) as Eo.
  { pose proof (f_equal snd H) as H2. cbn [snd] in H2. rewrite <- H2. vm_compute. reflexivity. }
  assert (Forall proper_request [Run o [s "eprem.cfg"] (s "r1") [] (s "4") true]) as Hr.
  { repeat first [apply Forall_nil | apply Forall_cons]. split; [name_ok|intros p y t0 []]. }
  destruct (C36_logged_runs_exist wildcard _ _ _ _ Hs Hl Hr H) as (A & B).
  { rewrite Eo. repeat first [apply Forall_nil | apply Forall_cons]; discriminate. }
  split; [assumption|]. split; [assumption|]. rewrite Ew. clear.
  split; [vm_compute; reflexivity|]. split; [vm_compute; reflexivity|]. split; [vm_compute; reflexivity|].
  split; vm_compute; reflexivity.
Qed.
Print Assumptions C37_unrecorded_run_refuted.

Example C37_example :
  let w := fst (history wildcard [ex_run 0 (s "r1"); Rm (s "r1") [s "b"] true] (ex_world ab 100)) in
  exists w1 w2, project_mv (s "r1") (s "r2") [] false w = (w1, Ok tt)
  /\ project_mv (s "r1") (s "r2") [] true w = (w2, Raise operation_error)
  /\ selected w [] (ex_root ++ [s "a"; s "runs"])
  /\ is_dir (w_fs w1) (ex_root ++ [s "a"; s "runs"; s "r2"]) = true
  /\ is_dir (w_fs w2) (ex_root ++ [s "a"; s "runs"; s "r2"]) = true.
Proof.
  intros w. do 2 eexists. split; [vm_compute; reflexivity|]. split; [vm_compute; reflexivity|].
  split; [right; exists (s "a"); split; [vm_compute; now left|split; [vm_compute; reflexivity|now left]]|].
  split; vm_compute; reflexivity.
Qed.

(** ** C38: renaming a project *)

(** The directories move, but no key of the log changes: after a successful
    rename each recorded run is recorded under a path that does not exist, and
    no run of the renamed project has a record. *)
Theorem C38_rename_log_refuted : forall new force w w' x p,
  sound w -> logged_runs_exist w -> proper_path new ->
  w_log w = w_root w ++ [x] -> x <> s ".eprem.conf" ->
  run_path w p -> record_of w (path_str p) <> None ->
  project_rename new force w = (w', Ok tt) ->
  record_of w' (path_str p) <> None /\ exists_ (w_fs w') p = false
  /\ forall q, run_path w' q -> record_of w' (path_str q) = None.
Proof.
  intros new force w w' x p Hs Hl Pn EL Nx Hp Rp E.
  destruct (rename_result w w' new force x Hs EL Nx E) as (Nn & W1 & W2 & E1 & E2 & E3 & E4 & E5 & Fr & Rc & _).
  assert (forall d, run_directory w d -> within (w_root w) d) as Dw.
  { intros d [[_ ->]|(b & _ & ->)]; now eexists. }
  assert (forall q, within new q -> ~ within (w_root w) q) as Disj.
  { intros q [r Hr] [t Ht]. rewrite Hr in Ht. destruct (prefix_comparable _ _ _ _ Ht) as [C|C]; [now apply W2|now apply W1]. }
  split; [now rewrite Rc|]. split.
  - destruct Hp as (d & y & Hd & _ & _ & ->). destruct (Dw d Hd) as [r Hr].
    assert (within (w_root w) (d ++ [y])) as Wd by (rewrite Hr, <- app_assoc; now eexists).
    assert (~ within new (d ++ [y])) as Nd by (intros C; now apply (Disj _ C)).
    apply exists_false. rewrite Fr.
    + unfold before. rewrite (proj2 (strip_prefix_none _ _) Nd), (proj2 (at_or_below_iff _ _) Wd). reflexivity.
    + intros C. apply Nd. rewrite C. now eexists.
    + intros C. apply Nd. rewrite C. now eexists.
  - intros q Hq. rewrite Rc. destruct (record_of w (path_str q)) eqn:R; [|reflexivity]. exfalso.
    assert (within new q) as Wq.
    { destruct Hq as (d & y & Hd & _ & _ & ->).
      destruct Hd as [[_ ->]|(b & _ & ->)]; rewrite E1, <- app_assoc; now eexists. }
    assert (proper_path q) as Pq.
    { destruct Hq as (d & y & Hd & Ny & Sy & ->). apply Forall_app. split; [|constructor; [now split|constructor]].
      destruct Hd as [[_ ->]|(b & Hb & ->)]; rewrite E1, E4; (apply Forall_app; split; [assumption|]).
      - constructor; [apply Hs|constructor].
      - constructor; [|constructor; [apply Hs|constructor]]. rewrite E3 in Hb.
        pose proof (sound_branches w Hs) as Fb. rewrite Forall_forall in Fb. now apply Fb. }
    destruct (Hl (path_str q)) as (p' & Hp' & Ep & _); [congruence| |].
    + intros [C|C]; destruct (path_str_head q) as [r Hr]; rewrite Hr in C; discriminate.
    + apply path_str_inj in Ep; [|assumption|].
      * subst p'. apply (Disj q Wq). destruct Hp' as (d & y & Hd & _ & _ & ->). destruct (Dw d Hd) as [r Hr].
        rewrite Hr, <- app_assoc. now eexists.
      * apply (rp_proper w Hs). now apply ofw_run_path.
Qed.
Print Assumptions C38_rename_log_refuted.

Example C38_example :
  let w := fst (history wildcard [ex_run 0 (s "r1")] (ex_world ab 100)) in
  exists w', project_rename [s "home"; s "new"] false w = (w', Ok tt)
  /\ run_path w (ex_root ++ [s "a"; s "runs"; s "r1"])
  /\ record_of w (path_str (ex_root ++ [s "a"; s "runs"; s "r1"])) <> None
  /\ is_dir (w_fs w') [s "home"; s "new"; s "a"; s "runs"; s "r1"] = true.
Proof.
  intros w. eexists. split; [vm_compute; reflexivity|]. split.
  - exists (ex_root ++ [s "a"; s "runs"]), (s "r1"). split; [right; exists (s "a"); split; [vm_compute; now left|vm_compute; reflexivity]|].
    split; [discriminate|]. split; [cbn; intuition discriminate|reflexivity].
  - split; vm_compute; [discriminate|reflexivity].
Qed.

(** What does hold: the directories move as a whole, and nothing else changes
    but the metadata and the log file. *)
Theorem C38_rename_partial : forall new force w w' x,
  sound w -> w_log w = w_root w ++ [x] -> x <> s ".eprem.conf" ->
  project_rename new force w = (w', Ok tt) ->
  w_root w' = new
  /\ (forall r, r <> [x] -> r <> [s ".eprem.conf"] -> fs_get (w_fs w') (new ++ r) = fs_get (w_fs w) (w_root w ++ r))
  /\ (forall r, exists_ (w_fs w') (w_root w ++ r) = false)
  /\ (forall z, ~ within (w_root w) z -> ~ within new z -> fs_get (w_fs w') z = fs_get (w_fs w) z).
Proof.
  intros new force w w' x Hs EL Nx E.
  destruct (rename_result w w' new force x Hs EL Nx E) as (Nn & W1 & W2 & E1 & E2 & _ & _ & _ & Fr & _).
  split; [assumption|]. split; [|split].
  - intros r N1 N2. rewrite Fr.
    + unfold before. now rewrite (proj2 (strip_prefix_some new (new ++ r) r) eq_refl).
    + intros C. apply app_inv_head in C. contradiction.
    + intros C. apply app_inv_head in C. contradiction.
  - intros r. assert (~ within new (w_root w ++ r)) as N.
    { intros [t Ht]. destruct (prefix_comparable _ _ _ _ Ht) as [C|C]; [now apply W1|now apply W2]. }
    apply exists_false. rewrite Fr.
    + unfold before. rewrite (proj2 (strip_prefix_none _ _) N), (proj2 (at_or_below_iff _ _)); [reflexivity|now eexists].
    + intros C. apply N. rewrite C. now eexists.
    + intros C. apply N. rewrite C. now eexists.
  - intros z Z1 Z2. rewrite Fr.
    + unfold before. now rewrite (proj2 (strip_prefix_none _ _) Z2), (proj2 (at_or_below_false _ _) Z1).
    + intros C. apply Z2. rewrite C. now eexists.
    + intros C. apply Z2. rewrite C. now eexists.
Qed.
Print Assumptions C38_rename_partial.

(** A renamed project is found under its new name with the attributes it had. *)
Theorem C38_renamed_project_restores : forall new force w w' x o,
  sound w -> w_log w = w_root w ++ [x] -> x <> s ".eprem.conf" -> plain_path (w_root w) -> plain_path new ->
  attrs_of (w_root w) o = Ok (w_attrs w) -> a_inputs (w_attrs w) <> w_root w ->
  fs_get (w_fs w) (conf (w_root w)) = Some (File (Json (serial (w_attrs w)))) ->
  project_rename new force w = (w', Ok tt) ->
  exists a, restore (w_fs w') new = Ok a /\ a_root a = new
  /\ a_branches a = a_branches (w_attrs w) /\ a_config a = a_config (w_attrs w) /\ a_output a = a_output (w_attrs w)
  /\ a_rundir a = a_rundir (w_attrs w) /\ a_logname a = a_logname (w_attrs w)
  /\ exists i, a_inputs (w_attrs w) = w_root w ++ [i] /\ a_inputs a = new ++ [i].
Proof.
  intros new force w w' x o Hs EL Nx Pr Pn Ea Ni Cf E.
  destruct (rename_result w w' new force x Hs EL Nx E) as (_ & _ & _ & _ & _ & _ & _ & _ & _ & _ & d & Gd & Gd').
  set (a := w_attrs w) in *. rewrite Cf in Gd. unfold serial in Gd. injection Gd as <-.
  destruct (attrs_of_inv _ _ _ Ea) as (A1 & _ & _ & A4 & A5 & A6 & A7 & A8 & _).
  destruct (attrs_again _ _ _ Pr Ea Ni) as (o' & E1 & E2).
  assert (a_inputs a = w_root w ++ [localize (or_str (o_inputs o) (s "inputs"))]) as A4'.
  { rewrite A4. unfold join_local. destruct (localize (or_str (o_inputs o) (s "inputs"))) eqn:El; [|reflexivity].
    exfalso. apply Ni. rewrite A4. reflexivity. }
  rewrite components_path in E2 by assumption.
  pose proof (attrs_of_inv _ _ _ E2) as (_ & B2 & B3 & B4 & B5 & B6 & _).
  assert (exists a', attrs_of new o' = Ok a' /\ a_root a' = new /\ a_branches a' = a_branches a /\ a_config a' = a_config a
    /\ a_output a' = a_output a /\ a_rundir a' = a_rundir a /\ a_logname a' = a_logname a
    /\ a_inputs a' = join_local new (localize (or_str (o_inputs o') (s "inputs")))) as (a' & F1 & F2 & F3 & F4 & F5 & F6 & F7 & F8).
  { clearbody a. unfold attrs_of in E2 |- *. destruct (with_suffix_json (localize (or_str (o_logname o') (s "runs")))) as [l|e]; [|discriminate]. cbn [bind] in *.
    injection E2 as <-. eexists. split; [reflexivity|]. cbn. repeat (split; [reflexivity|]). reflexivity. }
  exists a'. split.
  - unfold restore, read. rewrite Gd'. cbn [bind].
    rewrite lookup_find.
    assert (forall v d, match find (fun e : str * json => str_eqb (fst e) (s "root")) (dict_put str_eqb d (s "root") v) with
        | Some e => Ok (snd e) | None => Raise KeyError end = Ok v) as ->.
    { intros v d. induction d as [|[k u] d IH]; [reflexivity|]. cbn [dict_put]. destruct (str_eqb k (s "root")) eqn:K.
      - apply str_eqb_eq in K as ->. reflexivity.
      - cbn [find fst]. now rewrite K. }
    rewrite components_path by assumption.
    assert (forall k v (d : list (str * json)), without_key (dict_put str_eqb d k v) k = without_key d k) as ->.
    { intros k v d. unfold without_key. induction d as [|[k' u] d IH].
      - cbn. now rewrite str_eqb_refl.
      - cbn [dict_put]. destruct (str_eqb k' k) eqn:K; cbn [filter fst]; rewrite K; cbn [negb]; [reflexivity|]. now rewrite IH. }
    assert (forall k, (exists c, k = "/"%char :: c) -> forall b c i o r l rt,
      without_key [(s "root", rt); (s "branches", b); (s "config", c); (s "inputs", i); (s "output", o); (s "rundir", r); (s "logname", l)] k
      = [(s "root", rt); (s "branches", b); (s "config", c); (s "inputs", i); (s "output", o); (s "rundir", r); (s "logname", l)]) as ->.
    { intros k [c ->] *. reflexivity. }
    2: { apply path_str_head. }
    unfold serial in E1. rewrite E1. cbn [bind]. exact F1.
  - repeat (split; [assumption|]). exists (localize (or_str (o_inputs o) (s "inputs"))). split; [assumption|].
    rewrite B4 in A4'. rewrite F8. unfold join_local in *.
    destruct (localize (or_str (o_inputs o') (s "inputs"))) eqn:El.
    + exfalso. apply (f_equal (@length _)) in A4'. rewrite app_length in A4'. cbn in A4'. lia.
    + apply app_inv_head in A4'. now injection A4' as ->.
Qed.
Print Assumptions C38_renamed_project_restores.

(** [force] does not force: renaming onto something that exists always raises
    and changes nothing. *)
Theorem C38_rename_never_overwrites : forall new force w,
  exists_ (w_fs w) new = true -> exists e, project_rename new force w = (w, Raise e).
Proof.
  intros new force w H. unfold project_rename, mbind, get. cbn [fst snd]. rewrite H.
  destruct force; cbn [andb negb]; [|eexists; reflexivity].
  unfold paths_update_root, mbind, get. cbn [fst snd]. rewrite H. eexists. reflexivity.
Qed.
Print Assumptions C38_rename_never_overwrites.

(** ** C39: simulations that fail *)
Theorem C39_failed_run_not_recorded : forall o config x bs nproc errors w w',
  sound w -> logged_runs_exist w -> proper_request (Run o config x bs nproc errors) ->
  project_run o config x bs nproc errors w = (w', Ok tt) ->
  forall d, selected w bs d -> exists_ (w_fs w) (d ++ [x]) = false -> returncode o (d ++ [x]) <> 0%Z ->
  is_dir (w_fs w') (d ++ [x]) = true /\ record_of w' (path_str (d ++ [x])) = None
  /\ logged_runs_exist w'.
Proof.
  intros o config x bs nproc errors w w' Hs Hl Hr E d Sd Ne Rc.
  destruct (C37_run _ _ _ _ _ _ _ _ Hs Hl Hr E) as (A & _). destruct (A d (selected_dir _ _ _ Sd)) as [B _].
  destruct (B Sd Ne) as (B1 & _ & B3). split; [assumption|]. split.
  - rewrite (B3 Rc). destruct (record_of w (path_str (d ++ [x]))) eqn:R; [|reflexivity]. exfalso.
    destruct (Hl (path_str (d ++ [x]))) as (p & Hp & Ep & Dp); [congruence| |].
    + intros [C|C]; destruct (path_str_head (d ++ [x])) as [r Hrr]; rewrite Hrr in C; discriminate.
    + apply (rp_str w Hs) in Ep.
      * subst p. apply is_dir_get in Dp. apply exists_false in Ne. congruence.
      * exists d, x. split; [now apply (selected_dir w bs)|]. split; [apply Hr|reflexivity].
      * now apply ofw_run_path.
  - destruct (perform_logged (fun _ _ => false) (Run o config x bs nproc errors) w w' (Ok tt) Hs Hl Hr E) as (_ & ? & _); [discriminate|assumption].
Qed.
Print Assumptions C39_failed_run_not_recorded.

(** The property fails: moving the directory of a failed run raises after the
    directory was moved, in every project without branches. *)
Theorem C39_move_after_failure_refuted : forall x y errors w d,
  sound w -> w_branches w = [] -> run_directory w d -> proper_name x -> proper_name y ->
  is_dir (w_fs w) (d ++ [x]) = true -> exists_ (w_fs w) (d ++ [y]) = false ->
  record_of w (path_str (d ++ [x])) = None -> 1 <= w_steps w ->
  exists w', project_mv x y [] errors w = (w', Raise log_key_error)
  /\ is_dir (w_fs w') (d ++ [y]) = true /\ exists_ (w_fs w') (d ++ [x]) = false
  /\ (forall k, record_of w' k = record_of w k).
Proof. exact move_unrecorded. Qed.
Print Assumptions C39_move_after_failure_refuted.

Example C39_example : exists w w' d,
  open_project ex_fs ex_root None (ex_options []) (Ok []) 100 = Ok w
  /\ project_run (ex_outside 1) [s "eprem.cfg"] (s "r1") [] (s "4") true w = (w', Ok tt)
  /\ run_directory w' d /\ w_branches w' = []
  /\ is_dir (w_fs w') (d ++ [s "r1"]) = true /\ record_of w' (path_str (d ++ [s "r1"])) = None /\ 1 <= w_steps w'.
Proof.
  do 3 eexists. split; [vm_compute; reflexivity|]. split; [vm_compute; reflexivity|].
  split; [left; split; reflexivity|]. split; [reflexivity|]. split; [vm_compute; reflexivity|].
  split; [vm_compute; reflexivity|]. cbn. lia.
Qed.

(** ** C40: saving and restoring *)
Theorem C40_attributes_restored : forall f p o f' a,
  plain_path p -> create_project f p o = (f', Ok a) -> a_inputs a <> p -> restore f' p = Ok a.
Proof.
  intros f p o f' a Pl E Ni. unfold create_project in E.
  destruct (attrs_of p o) as [a0|e] eqn:Ea; [|discriminate].
  destruct (mkdir f (a_root a0) false) as [f1|e]; [|discriminate].
  destruct (write f1 (conf p) (Json (serial a0))) as [f2|e] eqn:W; [|discriminate].
  injection E as <- <-. apply write_ok in W as (-> & _ & _ & N).
  unfold restore, read. rewrite get_put_same by assumption. cbn [bind serial].
  destruct (attrs_again p o a0 Pl Ea Ni) as (o' & E1 & E2). cbn [serial] in E1.
  cbn [lookup]. change (str_eqb (s "root") (s "root")) with true. cbn iota.
  rewrite E1. cbn [bind]. destruct (attrs_of_inv _ _ _ Ea) as (A1 & _). rewrite A1. exact E2.
Qed.
Print Assumptions C40_attributes_restored.

(** Opening an existing project again, after any history, changes nothing on the
    disk and gives a project with the same settings. *)
Theorem C40_reopen_changes_nothing : forall f p o script n w matches rs w' outs script' m,
  tree f -> plain_path p -> exists_ f p = false -> named_options o ->
  open_project f p None o script n = Ok w -> a_inputs (w_attrs w) <> p ->
  Forall proper_request rs -> history matches rs w = (w', outs) -> Forall survived outs ->
  open_project (w_fs w') p None (mkoptions None None None None None None) script' m
  = Ok (mkworld (w_fs w') (w_root w') (w_branches w') (w_base w') (w_log w') (w_attrs w') m).
Proof. exact reopen_history. Qed.
Print Assumptions C40_reopen_changes_nothing.

Example C40_example : exists f' a, create_project ex_fs ex_root (mkoptions (Some ab) (Some (s "my.cfg")) (Some (s "in/put")) None None (Some (s "log.txt"))) = (f', Ok a)
  /\ a_inputs a = ex_root ++ [s "put"] /\ a_logname a = s "log.json" /\ a_inputs a <> ex_root.
Proof. do 2 eexists. split; [vm_compute; reflexivity|]. split; [vm_compute; reflexivity|]. split; [vm_compute; reflexivity|discriminate]. Qed.
Example C40_reopen_example : forall w' outs,
  history wildcard [ex_run 0 (s "r1"); ex_run 1 (s "r2"); Mv (s "r1") (s "r3") [] true] (ex_world ab 100) = (w', outs) ->
  open_project (w_fs w') ex_root None (mkoptions None None None None None None) (Raise ValueError) 5
  = Ok (mkworld (w_fs w') ex_root ab (s "runs") (w_log w') (w_attrs w') 5).
Proof.
  intros w' outs H.
  assert (open_project ex_fs ex_root None (ex_options ab) (Ok []) 100 = Ok (ex_world ab 100)) as E by (vm_compute; reflexivity).
  assert (outs = [Ok tt; Ok tt; Ok tt]) as Eo.
  { pose proof (f_equal snd H) as H2. cbn [snd] in H2. rewrite <- H2. vm_compute. reflexivity. }
  assert (Forall proper_request [ex_run 0 (s "r1"); ex_run 1 (s "r2"); Mv (s "r1") (s "r3") [] true]) as Hr by requests_ok.
  rewrite (C40_reopen_changes_nothing _ _ _ _ _ _ _ _ _ _ (Raise ValueError) 5 ex_tree ex_plain eq_refl (ex_named ab ex_ab) E ltac:(discriminate)
    Hr H ltac:(rewrite Eo; repeat first [apply Forall_nil | apply Forall_cons]; discriminate)).
  replace (w_root w') with ex_root by (pose proof (f_equal fst H) as H1; cbn [fst] in H1; rewrite <- H1; vm_compute; reflexivity).
  replace (w_branches w') with ab by (pose proof (f_equal fst H) as H1; cbn [fst] in H1; rewrite <- H1; vm_compute; reflexivity).
  replace (w_base w') with (s "runs") by (pose proof (f_equal fst H) as H1; cbn [fst] in H1; rewrite <- H1; vm_compute; reflexivity).
  reflexivity.
Qed.

(** The property fails when the inputs are kept in the root directory itself. *)
Theorem C40_inputs_in_root_refuted : exists f' a a',
  create_project ex_fs ex_root (mkoptions None None (Some (s ".")) None None None) = (f', Ok a)
  /\ restore f' ex_root = Ok a' /\ a_inputs a = ex_root /\ a_inputs a' = ex_root ++ [s "prj"].
Proof.
  do 3 eexists. split; [vm_compute; reflexivity|]. split; [vm_compute; reflexivity|]. split; reflexivity.
Qed.
Print Assumptions C40_inputs_in_root_refuted.

(** ** C57: a process that is killed *)
Theorem C57_killed : forall matches r w w',
  sound w -> logged_runs_exist w -> proper_request r ->
  perform matches r w = (w', Raise killed) ->
  fs_get (w_fs w') (w_log w') = Some (File (Text []))
  \/ sound w' /\ exists k0, forall k, record_of w' k <> None -> ~ common_key k -> k <> k0 ->
       exists p, run_path w' p /\ k = path_str p /\ is_dir (w_fs w') p = true.
Proof. intros. now destruct (perform_killed matches r w w'). Qed.
Print Assumptions C57_killed.

(** The log can be lost: between emptying the log file and writing it, all
    records are gone, and each later request to move a run fails. *)
Theorem C57_log_lost_refuted :
  let w0 := fst (history wildcard [ex_run 0 (s "r1"); ex_run 0 (s "r2")] (ex_world [] 100)) in
  let w := mkworld (w_fs w0) (w_root w0) (w_branches w0) (w_base w0) (w_log w0) (w_attrs w0) 2 in
  exists w1 w2, sound w /\ logged_runs_exist w /\ readable w
  /\ project_mv (s "r1") (s "r3") [] true w = (w1, Raise killed)
  /\ ~ readable w1
  /\ project_mv (s "r2") (s "r4") [] true (mkworld (w_fs w1) (w_root w1) (w_branches w1) (w_base w1) (w_log w1) (w_attrs w1) 100)
     = (w2, Raise (OtherError "JSONDecodeError")).
Proof.
  intros w0 w.
  assert (open_project ex_fs ex_root None (ex_options []) (Ok []) 100 = Ok (ex_world [] 100)) as E by (vm_compute; reflexivity).
  destruct (C36_new_project _ _ _ _ _ _ ex_tree ex_proper eq_refl (ex_named [] (Forall_nil _)) E) as (Hs & Hl & He & _).
  assert (sound w0 /\ logged_runs_exist w0) as [A B].
  { assert (Forall proper_request [ex_run 0 (s "r1"); ex_run 0 (s "r2")]) as Hr by requests_ok.
    assert (Forall (fun o => o <> Raise killed) (snd (history wildcard [ex_run 0 (s "r1"); ex_run 0 (s "r2")] (ex_world [] 100)))) as Ho.
    { replace (snd (history wildcard [ex_run 0 (s "r1"); ex_run 0 (s "r2")] (ex_world [] 100))) with [Ok tt; Ok tt]
        by (vm_compute; reflexivity).
      repeat first [apply Forall_nil | apply Forall_cons]; discriminate. }
    exact (C36_logged_runs_exist wildcard _ _ _ _ Hs Hl Hr (surjective_pairing _) Ho). }
  eexists. eexists.
  split; [destruct A; constructor; assumption|]. split; [exact B|]. split; [vm_compute; discriminate|].
  split; [vm_compute; reflexivity|]. split; [vm_compute; intuition congruence|]. vm_compute. reflexivity.
Qed.
Print Assumptions C57_log_lost_refuted.

(** ** C58: what no request changes *)

(** Whatever the outcome and wherever the process is killed, a request changes
    nothing outside the runs and the log file. *)
Theorem C58_nothing_else_changes : forall matches r w w' out,
  sound w -> proper_request r -> perform matches r w = (w', out) ->
  forall z, z <> w_log w -> (forall p, run_path w p -> ~ within p z) ->
  fs_get (w_fs w') z = fs_get (w_fs w) z.
Proof. intros matches r w w' out Hs Hr E. now destruct (perform_frame matches r w w' out Hs Hr E) as (_ & _ & ?). Qed.
Print Assumptions C58_nothing_else_changes.

Example C58_example : exists w' , perform wildcard (ex_run 0 (s "r1")) (ex_world ab 3) = (w', Raise killed)
  /\ w_fs w' <> w_fs (ex_world ab 3) /\ fs_get (w_fs w') (ex_home ++ [s "eprem.cfg"]) = Some (File (Text (s "mass = 1"))).
Proof. eexists. split; [vm_compute; reflexivity|]. split; [vm_compute; discriminate|vm_compute; reflexivity]. Qed.

(** ** C59: projects made as copies *)

(** The attributes of a copy do not depend on the project that is copied. *)
Theorem C59_copy_options_refuted : forall f p q a o,
  restore f q = Ok a -> init_project f p (Some q) o = init_project f p None o.
Proof. intros f p q a o H. unfold init_project. now rewrite H. Qed.
Print Assumptions C59_copy_options_refuted.

Example C59_example : exists f1 w1 w2,
  (f1 = w_fs (ex_world ab 10)) /\ open_project f1 ex_root None (mkoptions None None None None None None) (Raise ValueError) 0 = Ok w1
  /\ open_project f1 (ex_home ++ [s "copy"]) (Some ex_root) (mkoptions None None None None None None) (Ok []) 0 = Ok w2
  /\ w_branches w1 = ab /\ w_branches w2 = [].
Proof.
  do 3 eexists. split; [reflexivity|]. split; [vm_compute; reflexivity|]. split; [vm_compute; reflexivity|]. split; reflexivity.
Qed.
