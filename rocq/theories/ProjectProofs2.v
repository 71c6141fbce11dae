(** From invariants of single steps to requests and histories. *)
From Verif Require Import PyBase PyLemmas ContainerModel ContainerSpec ContainerProofs ContainerProofs2
  FsModel FsProofs ProjectModel ProjectSpec ProjectProofs.

Definition depth (w : world) : nat :=
  length (w_root w) + match w_branches w with [] => 1 | _ => 2 end.

Lemma run_directory_len w d : run_directory w d -> length d = depth w.
Proof.
  unfold run_directory, depth. intros [[-> ->]|(b & Hb & ->)]; rewrite app_length; cbn; [lia|].
  destruct (w_branches w); [destruct Hb|]. cbn. lia.
Qed.
Lemma run_directory_proper w : sound w -> forall d, run_directory w d -> proper_path d.
Proof.
  intros H d [[_ ->]|(b & Hb & ->)]; apply Forall_app; (split; [apply H|]).
  - constructor; [apply H|constructor].
  - constructor; [|constructor; [apply H|constructor]].
    pose proof (sound_branches w H) as F. rewrite Forall_forall in F. now apply F.
Qed.
Lemma listing_iff w d : w_base w <> [] -> In d (listing w) <-> run_directory w d.
Proof.
  intros Nb. unfold listing, listing_of, run_directory, join_local.
  destruct (w_base w) as [|c b] eqn:Eb; [contradiction|]. destruct (w_branches w) as [|b0 bs].
  - cbn. split; [intros [<-|[]]; auto|]. intros [[_ ->]|(x & [] & _)]. now left.
  - rewrite in_map_iff. split.
    + intros (x & <- & Hx). right. exists x. split; [assumption|]. rewrite <- app_assoc. reflexivity.
    + intros [[C _]|(x & Hx & ->)]; [discriminate|]. exists x. split; [|assumption]. rewrite <- app_assoc. reflexivity.
Qed.
Lemma rundirs_sub w bs d : w_base w <> [] -> In d (rundirs w bs) -> run_directory w d.
Proof.
  intros Nb H. apply listing_iff; [assumption|]. unfold rundirs in H. destruct bs; [assumption|].
  apply filter_In in H. apply H.
Qed.

Definition ofw (w : world) := RP (run_directory w).
Lemma ofw_run_path w p : ofw w p <-> run_path w p.
Proof.
  unfold ofw, RP, run_path, proper_name. split; intros (d & x & H); exists d, x; tauto.
Qed.

Lemma sound_log_get w : sound w -> exists d, fs_get (w_fs w) (w_log w) = Some (File (Json (JObj d))).
Proof.
  intros H. pose proof (sound_log w H) as R. unfold readable, log_contents in R.
  destruct (fs_get (w_fs w) (w_log w)) as [[|[|[| | |d]]]|]; try congruence. eauto.
Qed.
Lemma sound_log_ne w : sound w -> w_log w <> [].
Proof. intros H E. destruct (sound_log_get w H) as [d G]. rewrite E in G. discriminate. Qed.
Lemma sound_log_proper w : sound w -> proper_path (w_log w).
Proof.
  intros H. destruct (sound_log_get w H) as [d G].
  pose proof (sound_log_ne w H) as N. destruct (w_log w) eqn:E; [contradiction|].
  apply entry_in in G. now apply (sound_names w H) in G.
Qed.

Lemma sound_inv w : sound w -> inv (run_directory w) (w_log w) (w_fs w).
Proof.
  intros H. split.
  - intros q (d & Hd & W). apply is_dir_get. now apply (sound_dirs w H d q).
  - intros p Hp N. apply is_dir_get. apply (sound_runs w H); [now apply ofw_run_path|]. now apply exists_get.
  - exact (sound_names w H).
  - apply is_dir_get. exact (sound_log_parent w H).
Qed.

Lemma record_key w k : record_of w k <> None <-> exists d, log_contents w = Some d /\ In k (keys d).
Proof.
  unfold record_of. destruct (log_contents w) as [d|].
  - pose proof (find_keys d k) as F. destruct (find _ d); split.
    + intros _. exists d. split; auto. apply F. discriminate.
    + discriminate.
    + congruence.
    + intros (d' & E & Hk). injection E as <-. apply F in Hk. congruence.
  - split; [congruence|]. intros (d & E & _). discriminate.
Qed.

Lemma J_of w Y : sound w -> logged_runs_exist w ->
  (forall p, run_path w p -> is_dir (w_fs w) p = true -> ~ Y p -> record_of w (path_str p) <> None) ->
  J (run_directory w) (w_log w) nothing Y (w_fs w).
Proof.
  intros H A B. split; [now apply sound_inv|].
  destruct (sound_log_get w H) as [d G]. exists d.
  assert (log_contents w = Some d) as LC by (unfold log_contents; now rewrite G).
  assert (logv (w_log w) (w_fs w) = Some d) as LV by (unfold logv; now rewrite G).
  repeat split; auto.
  - intros k Hk. assert (common_key k \/ ~ common_key k) as [C|C].
    { unfold common_key. destruct (str_eqb k (s "config")) eqn:E1; [left; left; now apply str_eqb_eq|].
      destruct (str_eqb k (s "output")) eqn:E2; [left; right; now apply str_eqb_eq|].
      right. intros [->| ->]; discriminate. }
    + now left.
    + right; right. destruct (A k) as (p & Hp & -> & Dp); auto.
      * apply record_key. eauto.
      * exists p. repeat split; [now apply ofw_run_path|]. now apply is_dir_get.
  - intros p Hp Dp NY. apply ofw_run_path in Hp. apply is_dir_get in Dp.
    apply (B p Hp Dp) in NY. apply record_key in NY as (d' & E & Hk). congruence.
Qed.

Lemma settings_run_directory w w' d : settings w = settings w' -> run_directory w d <-> run_directory w' d.
Proof. unfold settings, run_directory. intro E. injection E as -> -> -> _ _. tauto. Qed.
Lemma settings_run_path w w' p : settings w = settings w' -> run_path w p <-> run_path w' p.
Proof.
  intro E. unfold run_path. split; intros (d & x & H & R); exists d, x;
  (split; [now apply (settings_run_directory _ _ d E)|exact R]).
Qed.

Lemma J_back w0 w X Y : sound w0 -> settings w = settings w0 ->
  J (run_directory w0) (w_log w0) X Y (w_fs w) ->
  sound w
  /\ (forall k, record_of w k <> None -> common_key k \/ X k
        \/ exists p, run_path w p /\ k = path_str p /\ is_dir (w_fs w) p = true)
  /\ (forall p, run_path w p -> is_dir (w_fs w) p = true -> ~ Y p -> record_of w (path_str p) <> None).
Proof.
  intros H E (I & d & LV & A & B).
  assert (w_log w = w_log w0) as EL by (unfold settings in E; congruence).
  assert (log_contents w = Some d) as LC by (unfold log_contents; rewrite EL; exact LV).
  assert (w_root w = w_root w0 /\ w_branches w = w_branches w0 /\ w_base w = w_base w0 /\ w_attrs w = w_attrs w0)
    as (E1 & E2 & E3 & E4) by (unfold settings in E; repeat split; congruence).
  split; [constructor|split].
  - rewrite E1. exact (sound_root w0 H).
  - rewrite E3. exact (sound_base w0 H).
  - rewrite E2. exact (sound_branches w0 H).
  - rewrite E4. exact (sound_config w0 H).
  - rewrite E4. exact (sound_output w0 H).
  - intros d' q Hd Hq. apply (settings_run_directory _ _ d' E) in Hd. apply is_dir_get. apply (inv_dirs _ _ _ I). exists d'. auto.
  - intros p Hp Np. apply (settings_run_path _ _ p E) in Hp. apply ofw_run_path in Hp. apply is_dir_get.
    apply (inv_runs _ _ _ I); auto. now apply exists_get.
  - exact (inv_names _ _ _ I).
  - unfold readable. congruence.
  - rewrite EL. apply is_dir_get. exact (inv_parent _ _ _ I).
  - intros d' Hd. apply (settings_run_directory _ _ d' E) in Hd. rewrite EL. now apply (sound_log_place w0 H).
  - intros k Hk. apply record_key in Hk as (d' & E' & Hk). assert (d' = d) as -> by congruence.
    destruct (A k Hk) as [?|[?|(p & Hp & -> & Dp)]]; auto. right; right. exists p.
    split; [|split; [reflexivity|]].
    + apply (settings_run_path _ _ p E). now apply ofw_run_path.
    + now apply is_dir_get.
  - intros p Hp Dp NY. apply record_key. exists d. split; auto. apply B; auto.
    + apply ofw_run_path. now apply (settings_run_path _ _ p E).
    + now apply is_dir_get.
Qed.

(** One request *)
Section Request.
Variable w0 : world.
Hypothesis H0 : sound w0.
Let D := run_directory w0.
Let L := w_log w0.
Let St := S0 L (w_root w0) (w_branches w0) (w_base w0) (w_attrs w0).

Lemma St_iff w : St w <-> settings w = settings w0.
Proof. unfold St, S0, settings, L. tauto. Qed.

Lemma perform_triple matches (Y : path -> Prop) r : proper_request r ->
  (simulation_succeeds r \/ (forall p, Y p)) ->
  triple St (J D L nothing Y) (perform matches r) (fun _ => J D L nothing Y) (Err D L Y).
Proof.
  intros Hr Hs.
  pose proof (fun d Hd => run_directory_len w0 d Hd) as D_len.
  pose proof (run_directory_proper w0 H0) as D_proper.
  pose proof (sound_log_place w0 H0) as L_out.
  pose proof (sound_log_proper w0 H0) as L_proper.
  pose proof (sound_log_ne w0 H0) as L_ne.
  pose proof (sound_config w0 H0) as Cp. pose proof (sound_output w0 H0) as Op.
  assert (Nb : w_base w0 <> []) by apply H0.
  assert (forall w d bs, St w -> In d (rundirs w bs) -> D d) as RD.
  { intros w d bs Hw Hd. apply St_iff in Hw. apply (settings_run_directory _ _ d Hw).
    apply (rundirs_sub w bs d); [|assumption]. unfold settings in Hw. injection Hw as _ _ -> _ _. exact Nb. }
  destruct r as [o c n bs np e|x y bs e|x bs e]; cbn [perform].
  - unfold project_run. destruct Hr as [Hn Hf].
    eapply t_bind with (Q := fun ps f => (forall p, In p ps -> RP D p) /\ J D L nothing Y f).
    + apply t_get. intros w Hw HJ. split; [|assumption]. intros p Hp. apply in_map_iff in Hp as (d & <- & Hd).
      exists d, n. repeat split; try apply Hn. now apply (RD w d bs).
    + intros ps. apply t_pre. intros f0 [Hps HJ].
      eapply t_weaken with (P' := J D L nothing Y) (Q' := fun _ => J D L nothing Y) (E' := Err D L Y); [|intros f <-; assumption|tauto|tauto].
      apply (t_operate D L (depth w0)); auto.
      intros p Hp. apply (t_run_step D L (depth w0)); auto.
      * intros y t. now apply Hf.
      * destruct Hs as [Hs|Hs]; [left; apply Hs|right; apply Hs].
  - unfold project_mv. destruct Hr as [Hx Hy].
    eapply t_bind with (Q := fun ps f => (forall p, In p ps -> RP D (fst p) /\ RP D (snd p)) /\ J D L nothing Y f).
    + apply t_get. intros w Hw HJ. split; [|assumption]. intros p Hp. apply in_map_iff in Hp as (d & <- & Hd).
      split; [exists d, x|exists d, y]; repeat split; try apply Hx; try apply Hy; now apply (RD w d bs).
    + intros ps. apply t_pre. intros f0 [Hps HJ].
      eapply t_weaken with (P' := J D L nothing Y) (Q' := fun _ => J D L nothing Y) (E' := Err D L Y); [|intros f <-; assumption|tauto|tauto].
      apply (t_operate D L (depth w0)); auto.
      intros [p q] Hp. destruct (Hps _ Hp) as [Hp1 Hp2]. cbn in Hp1, Hp2.
      apply (t_mv_step D L (depth w0)); auto.
  - unfold project_rm.
    eapply t_bind with (Q := fun ps f => (forall p, In p ps -> RP D p) /\ J D L nothing Y f).
    + apply t_get. intros w Hw HJ. split; [|assumption]. intros p Hp.
      unfold define_pattern in Hp. apply in_flat_map in Hp as (d & Hd & Hp).
      apply glob_spec in Hp as (z & -> & _ & Ez). exists d, z. split; [now apply (RD w d bs)|].
      split; [|reflexivity].
      apply exists_get in Ez. destruct (d ++ [z]) as [|a b] eqn:Edz; [now apply snoc_nonempty in Edz|].
      cbn [fs_get] in Ez. destruct (entry (w_fs w) (a :: b)) as [nd|] eqn:En; [|congruence].
      apply entry_in in En. destruct HJ as (I & _). apply (inv_names _ _ _ I) in En.
      rewrite <- Edz in En. apply Forall_app in En as [_ En]. now inversion En.
    + intros ps. apply t_pre. intros f0 [Hps HJ].
      eapply t_weaken with (P' := J D L nothing Y) (Q' := fun _ => J D L nothing Y) (E' := Err D L Y); [|intros f <-; assumption|tauto|tauto].
      apply (t_operate D L (depth w0)); auto.
      intros p Hp. apply (t_rm_step D L (depth w0)); auto.
Qed.
End Request.

Lemma perform_logged matches r w w' out : sound w -> logged_runs_exist w -> proper_request r ->
  perform matches r w = (w', out) -> survived out ->
  sound w' /\ logged_runs_exist w' /\ settings w' = settings w.
Proof.
  intros Hs Hl Hr E Ho.
  assert (J (run_directory w) (w_log w) nothing anything (w_fs w)) as HJ.
  { apply J_of; auto. intros p _ _ N. exfalso. apply N. exact Logic.I. }
  pose proof (perform_triple w Hs matches anything r Hr (or_intror (fun _ => Logic.I)) w) as T.
  rewrite E in T. cbn [fst snd] in T. destruct T as (Es & _ & T); [reflexivity|exact HJ|].
  assert (J (run_directory w) (w_log w) nothing anything (w_fs w')) as HJ'.
  { destruct out as [[]|e]; [exact T|]. destruct T as [[-> _]|[[_ T]|(_ & _ & T)]]; [now elim Ho|exact T|exact T]. }
  destruct (J_back w w' _ _ Hs Es HJ') as (A & B & _). split; [assumption|]. split; [|assumption].
  intros k Hk Nk. destruct (B k Hk) as [?|[[]|?]]; [contradiction|assumption].
Qed.

Lemma perform_mirror matches r w w' out : sound w -> logged_runs_exist w -> existing_runs_logged w ->
  proper_request r -> simulation_succeeds r ->
  perform matches r w = (w', out) -> done_or_refused out ->
  sound w' /\ logged_runs_exist w' /\ existing_runs_logged w' /\ settings w' = settings w.
Proof.
  intros Hs Hl He Hr Hsim E Ho.
  assert (J (run_directory w) (w_log w) nothing nothing (w_fs w)) as HJ.
  { apply J_of; auto. }
  pose proof (perform_triple w Hs matches nothing r Hr (or_introl Hsim) w) as T.
  rewrite E in T. cbn [fst snd] in T. destruct T as (Es & _ & T); [reflexivity|exact HJ|].
  assert (J (run_directory w) (w_log w) nothing nothing (w_fs w')) as HJ'.
  { destruct Ho as [-> | ->]; [exact T|]. destruct T as [[C _]|[[_ T]|(_ & C & _)]]; [discriminate|exact T|congruence]. }
  destruct (J_back w w' _ _ Hs Es HJ') as (A & B & C). split; [assumption|]. split; [|split; [|assumption]].
  - intros k Hk Nk. destruct (B k Hk) as [?|[[]|?]]; [contradiction|assumption].
  - intros p Hp Dp. apply C; auto.
Qed.

Lemma history_logged matches rs : forall w w' outs, sound w -> logged_runs_exist w -> Forall proper_request rs ->
  history matches rs w = (w', outs) -> Forall survived outs ->
  sound w' /\ logged_runs_exist w' /\ settings w' = settings w.
Proof.
  induction rs as [|r rs IH]; intros w w' outs Hs Hl Hr E Ho; cbn in E.
  - injection E as <- <-. auto.
  - destruct (perform matches r w) as [w1 out] eqn:E1. destruct (history matches rs w1) as [w2 outs2] eqn:E2.
    injection E as <- <-. inversion Hr; inversion Ho; subst.
    destruct (perform_logged _ _ _ _ _ Hs Hl H1 E1 H5) as (A & B & C).
    destruct (IH _ _ _ A B H2 E2 H6) as (A' & B' & C'). split; [assumption|]. split; [assumption|congruence].
Qed.
Lemma history_mirror matches rs : forall w w' outs, sound w -> logged_runs_exist w -> existing_runs_logged w ->
  Forall proper_request rs -> Forall simulation_succeeds rs ->
  history matches rs w = (w', outs) -> Forall done_or_refused outs ->
  sound w' /\ logged_runs_exist w' /\ existing_runs_logged w' /\ settings w' = settings w.
Proof.
  induction rs as [|r rs IH]; intros w w' outs Hs Hl He Hr Hsim E Ho; cbn in E.
  - injection E as <- <-. auto.
  - destruct (perform matches r w) as [w1 out] eqn:E1. destruct (history matches rs w1) as [w2 outs2] eqn:E2.
    injection E as <- <-. inversion Hr; inversion Ho; inversion Hsim; subst.
    destruct (perform_mirror _ _ _ _ _ Hs Hl He H1 H9 E1 H5) as (A & B & C & F).
    destruct (IH _ _ _ A B C H2 H10 E2 H6) as (A' & B' & C' & F'). split; [assumption|]. split; [assumption|]. split; [assumption|congruence].
Qed.

(** A process killed while a request is performed *)
Lemma perform_killed matches r w w' : sound w -> logged_runs_exist w -> proper_request r ->
  perform matches r w = (w', Raise killed) ->
  settings w' = settings w
  /\ (fs_get (w_fs w') (w_log w') = Some (File (Text []))
      \/ sound w' /\ exists k0, forall k, record_of w' k <> None -> ~ common_key k -> k <> k0 ->
           exists p, run_path w' p /\ k = path_str p /\ is_dir (w_fs w') p = true).
Proof.
  intros Hs Hl Hr E.
  assert (J (run_directory w) (w_log w) nothing anything (w_fs w)) as HJ.
  { apply J_of; auto. intros p _ _ N. exfalso. apply N. exact Logic.I. }
  pose proof (perform_triple w Hs matches anything r Hr (or_intror (fun _ => Logic.I)) w) as T.
  rewrite E in T. cbn [fst snd] in T. destruct T as (Es & _ & T); [reflexivity|exact HJ|].
  split; [assumption|].
  destruct T as [[_ T]|[[C _]|(C & _ & _)]]; [|discriminate|congruence].
  destruct T as (I & [T|[k0 T]]).
  - left. assert (w_log w' = w_log w) as -> by (unfold settings in Es; congruence). exact T.
  - right. destruct (J_back w w' _ _ Hs Es T) as (A & B & _). split; [assumption|].
    exists k0. intros k Hk Nk Nk0. destruct (B k Hk) as [?|[?|?]]; [contradiction|congruence|assumption].
Qed.
