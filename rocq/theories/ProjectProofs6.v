(** What no request changes, whatever its outcome. *)
From Verif Require Import PyBase PyLemmas ContainerModel ContainerSpec ContainerProofs ContainerProofs2
  FsModel FsProofs ProjectModel ProjectSpec ProjectProofs ProjectProofs2.

Section Frame.
Variable w0 : world.
Hypothesis H0 : sound w0.
Let D := run_directory w0.
Let L := w_log w0.
Let St := S0 L (w_root w0) (w_branches w0) (w_base w0) (w_attrs w0).
Let D_len := fun d Hd => run_directory_len w0 d Hd.
Let D_proper := run_directory_proper w0 H0.
Let L_out := sound_log_place w0 H0.
Let L_proper := sound_log_proper w0 H0.
Let L_ne := sound_log_ne w0 H0.
Definition inside (z : path) : Prop := z = L \/ exists p, RP D p /\ within p z.
Variable f0 : fs.
Definition F (f : fs) : Prop := inv D L f /\ forall z, ~ inside z -> fs_get f z = fs_get f0 z.
Definition pres {A} (m : M A) : Prop := triple St F m (fun _ => F) (fun _ => F).

Lemma OS : of_settings St.
Proof using. intros w w' E H. unfold St, S0 in *. congruence. Qed.
Lemma p_bind {A B} (m : M A) (k : A -> M B) : pres m -> (forall a, pres (k a)) -> pres (mbind m k).
Proof using. intros H1 H2. now apply t_bind with (Q := fun _ => F). Qed.
Lemma p_ret {A} (a : A) : pres (ret a). Proof using. apply t_ret. auto. Qed.
Lemma p_raise {A} e : pres (@raise A e). Proof using. apply t_raise. auto. Qed.
Lemma p_get {A} (g : world -> A) : pres (get g). Proof using. apply t_get. auto. Qed.
Lemma p_lift {A} (r : result A) : pres (lift r). Proof using. apply t_lift. intros f Hf. now destruct r. Qed.
Lemma p_disk op : (forall f f', F f -> op f = Ok f' -> F f') -> pres (disk op).
Proof using.
  intros H. apply t_disk; [apply OS|auto|]. intros f Hf. destruct (op f) as [f'|e] eqn:E; [|assumption]. now apply (H f).
Qed.
Lemma p_if {A} (b : bool) (m1 m2 : M A) : pres m1 -> pres m2 -> pres (if b then m1 else m2).
Proof using. now destruct b. Qed.

Lemma F_put p y c f : RP D p -> proper_name y -> F f -> F (put f (p ++ [y]) (File c)).
Proof using H0.
  intros Hp Hy [I G]. destruct (step_put D L _ D_len D_proper L_out L_proper L_ne f p y c I Hp Hy) as ((I' & _ & _) & _).
  split; [assumption|]. intros z Hz. rewrite get_put_other; [now apply G|apply snoc_nonempty|].
  intros <-. apply Hz. right. exists p. split; [assumption|]. now exists [y].
Qed.
Lemma F_files p files : RP D p -> (forall x t, In (x, t) files -> proper_name x) -> forall f, F f -> F (write_files f p files).
Proof using H0.
  intros Hp. induction files as [|[x t] files IH]; intros Hf f Ff; cbn [write_files]; [assumption|].
  apply IH; [intros y u Hy; apply (Hf y u); now right|]. apply F_put; auto. apply (Hf x t). now left.
Qed.
Lemma F_log c f f' : F f -> write f L c = Ok f' -> F f'.
Proof using H0.
  intros [I G] W. apply write_ok in W as (-> & N & _ & _).
  destruct (step_log D L _ D_len D_proper L_out L_proper L_ne f c I N) as (I' & _).
  split; [assumption|]. intros z Hz. rewrite get_put_other; [now apply G|assumption|]. intros <-. apply Hz. now left.
Qed.
Lemma F_mkdir p f f' : RP D p -> F f -> mkdir f p false = Ok f' -> F f'.
Proof using H0.
  intros Hp [I G] Mk. destruct (step_mkdir D L _ D_len D_proper L_out L_proper L_ne f f' p I Hp Mk) as ((I' & _) & _).
  split; [assumption|]. intros z Hz. rewrite (mkdir_frame D L _ D_len D_proper L_out L_proper L_ne f f' p I Hp Mk); [now apply G|].
  intros ->. apply Hz. right. exists p. split; [assumption|]. exists []. now rewrite app_nil_r.
Qed.
Lemma F_rmtree p f : RP D p -> F f -> F (rmtree f p).
Proof using H0.
  intros Hp [I G]. destruct (step_rmtree D L _ D_len D_proper L_out L_proper L_ne f p I Hp) as ((I' & _) & _).
  split; [assumption|]. intros z Hz. rewrite get_rmtree.
  - rewrite (proj2 (at_or_below_false p z)); [now apply G|]. intros W. apply Hz. right. now exists p.
  - apply (RP_ne D L _ D_len D_proper L_out L_proper L_ne p Hp).
Qed.
Lemma F_rename p q f f' : RP D p -> RP D q -> F f -> rename f p q = Ok f' -> F f'.
Proof using H0.
  intros Hp Hq [I G] Rn.
  destruct (step_rename D L _ D_len D_proper L_out L_proper L_ne f f' p q I Hp Hq Rn) as (I' & _ & _ & _ & _ & N).
  split; [assumption|]. intros z Hz. rewrite (get_rename _ _ _ _ z Rn).
  - rewrite (proj2 (strip_prefix_none q z)), (proj2 (at_or_below_false p z)); [now apply G| |].
    + intros W. apply Hz. right. now exists p.
    + intros W. apply Hz. right. now exists q.
  - apply (RP_ne D L _ D_len D_proper L_out L_proper L_ne p Hp).
  - intros W. apply N. symmetry. now apply (RP_within D L _ D_len D_proper L_out L_proper L_ne q p).
Qed.

Lemma p_read : pres log_read.
Proof using.
  unfold log_read. apply p_bind; [apply p_get|]. intros f. apply p_bind; [apply p_get|]. intros p.
  apply p_bind; [apply p_lift|]. intros c. destruct c as [t|[| |[|x l]|d]]; try apply p_raise; apply p_ret.
Qed.
Lemma p_dump d : pres (log_dump d).
Proof using H0.
  unfold log_dump. eapply t_bind with (Q := fun p f => p = L /\ F f).
  { apply t_get. intros w Hw Hf. split; [|assumption]. unfold St, S0, settings in Hw. congruence. }
  intros p. apply t_pre. intros f1 [-> Hf].
  apply t_weaken with (P' := F) (Q' := fun _ => F) (E' := fun _ => F); auto; [|now intros f <-].
  apply p_bind; [|intros _]; apply p_disk; intros f f' Hf1 W; now apply (F_log _ f f' Hf1 W).
Qed.

Lemma p_operate {A B} (op : A -> M (option B)) force (body : B -> M unit) ps :
  (forall a, In a ps -> pres (r <<- op a ;; match r with Some b => _ <<- body b ;; ret true | None => ret false end)) ->
  pres (operate op force body ps).
Proof using.
  induction ps as [|p ps IH]; intros H; cbn [operate]; [apply p_ret|].
  assert (pres (operate op force body ps)) as IH' by (apply IH; intros q Hq; apply H; now right).
  specialize (H p (or_introl eq_refl)). clear IH.
  intros w Hs Hw. specialize (H w Hs Hw). unfold mbind in *.
  destruct (op p w) as [w1 [[b|]|e]]; cbn [fst snd] in *.
  - destruct (body b w1) as [w2 [u|e]]; cbn [fst snd] in *; [|exact H].
    destruct H as (E1 & S1 & Q1). specialize (IH' w2 S1 Q1).
    destruct (operate op force body ps w2) as [w3 r]. cbn [fst snd] in *.
    destruct IH' as (E2 & S2 & R2). split; [congruence|]. now split.
  - destruct H as (E1 & S1 & Q1). destruct force.
    + specialize (IH' w1 S1 Q1). destruct (operate op true body ps w1) as [w3 r]. cbn [fst snd] in *.
      destruct IH' as (E2 & S2 & R2). split; [congruence|]. now split.
    + cbn. now split.
  - exact H.
Qed.

Lemma p_create o config nproc p : RP D p -> (forall x t, In (x, t) (output_files o p) -> proper_name x) ->
  pres (create_run o config nproc p).
Proof using H0.
  intros Hp Hf. unfold create_run.
  apply p_bind; [apply p_get|]. intros root. apply p_bind; [apply p_get|]. intros f1.
  eapply t_bind with (Q := fun a f => a = w_attrs w0 /\ F f).
  { apply t_get. intros w Hw Hfw. split; [|assumption]. unfold St, S0, settings in Hw. congruence. }
  intros a. apply t_pre. intros f2 [-> Hf2].
  apply t_weaken with (P' := F) (Q' := fun _ => F) (E' := fun _ => F); auto; [|now intros f <-].
  apply p_bind; [apply p_if; [apply p_ret|apply p_if; [apply p_ret|apply p_raise]]|]. intros inputs.
  apply p_bind.
  { apply p_disk. intros f f' Ff E. unfold copy_file in E. destruct (read f inputs) as [c|e]; [|discriminate].
    cbn in E. apply write_ok in E as (-> & _). apply F_put; auto. apply H0. }
  intros _.
  assert (forall x b, pres (locate o x b)) as Loc.
  { intros x b. unfold locate. apply p_bind; [apply p_get|]. intros f3. apply p_if; [apply p_ret|].
    destruct (which o x); [apply p_ret|apply p_raise]. }
  apply p_bind; [apply Loc|]. intros mpirun. apply p_bind; [apply Loc|]. intros eprem.
  apply p_bind.
  { apply p_disk. intros f f' Ff E. apply write_ok in E as (-> & _). apply F_put; auto. apply H0. }
  intros _. apply p_bind.
  { apply p_disk. intros f f' Ff E. injection E as <-. now apply F_files. }
  intros _. apply p_if; [|apply p_ret]. unfold log_create. apply p_bind; [apply p_read|]. intros d. apply p_dump.
Qed.

Lemma p_perform matches r : proper_request r -> pres (perform matches r).
Proof using H0.
  intros Hr.
  assert (Nb : w_base w0 <> []) by apply H0.
  assert (forall w d bs, St w -> In d (rundirs w bs) -> D d) as RD.
  { intros w d bs Hw Hd. apply (settings_run_directory w w0 d Hw).
    apply (rundirs_sub w bs d); [|assumption]. unfold St, S0, settings in Hw. injection Hw as _ _ -> _ _. exact Nb. }
  destruct r as [o c n bs np e|x y bs e|x bs e]; cbn [perform].
  - unfold project_run. destruct Hr as [Hn Hf].
    eapply t_bind with (Q := fun ps f => (forall p, In p ps -> RP D p) /\ F f).
    + apply t_get. intros w Hw Ff. split; [|assumption]. intros p Hp. apply in_map_iff in Hp as (d & <- & Hd).
      exists d, n. split; [now apply (RD w d bs)|now split].
    + intros ps. apply t_pre. intros f1 [Hps Ff].
      apply t_weaken with (P' := F) (Q' := fun _ => F) (E' := fun _ => F); auto; [|now intros f <-].
      apply p_operate. intros p Hp. specialize (Hps p Hp).
      eapply t_bind with (Q := fun r f => (r = None \/ r = Some p) /\ F f).
      { unfold op_mkdir. eapply t_bind with (Q := fun _ => F); [apply p_get|]. intros f2. apply t_if; intros _.
        - apply t_ret. auto.
        - eapply t_bind with (Q := fun _ => F); [|intros _; apply t_ret; auto].
          apply p_disk. intros f f' Ff1 E. now apply (F_mkdir p f f'). }
      intros r. apply t_pre. intros f2 [Hrr Ff2].
      apply t_weaken with (P' := F) (Q' := fun _ => F) (E' := fun _ => F); auto; [|now intros f <-].
      destruct Hrr as [-> | ->]; [apply p_ret|]. apply p_bind; [|intros _; apply p_ret].
      apply p_create; auto. intros z t. apply Hf.
  - unfold project_mv. destruct Hr as [Hx Hy].
    eapply t_bind with (Q := fun ps f => (forall p, In p ps -> RP D (fst p) /\ RP D (snd p)) /\ F f).
    + apply t_get. intros w Hw Ff. split; [|assumption]. intros p Hp. apply in_map_iff in Hp as (d & <- & Hd).
      split; [exists d, x|exists d, y]; (split; [now apply (RD w d bs)|now split]).
    + intros ps. apply t_pre. intros f1 [Hps Ff].
      apply t_weaken with (P' := F) (Q' := fun _ => F) (E' := fun _ => F); auto; [|now intros f <-].
      apply p_operate. intros [p q] Hp. destruct (Hps _ Hp) as [Hp1 Hp2]. cbn in Hp1, Hp2.
      apply p_bind.
      { unfold op_mv. apply p_bind; [apply p_get|]. intros f2.
        apply p_if; [apply p_ret|]. apply p_if; [apply p_ret|]. apply p_if; [apply p_ret|].
        apply p_bind; [|intros _; apply p_ret]. apply p_disk. intros f f' Ff1 E. now apply (F_rename p q f f'). }
      intros r. destruct r as [pq|]; [|apply p_ret]. apply p_bind; [|intros _; apply p_ret].
      unfold log_mv. apply p_bind; [apply p_read|]. intros d. destruct (lookup _ _ _); [apply p_dump|apply p_raise].
  - unfold project_rm.
    eapply t_bind with (Q := fun ps f => (forall p, In p ps -> RP D p) /\ F f).
    + apply t_get. intros w Hw Ff. split; [|assumption]. intros p Hp.
      unfold define_pattern in Hp. apply in_flat_map in Hp as (d & Hd & Hp).
      apply glob_spec in Hp as (z & -> & _ & Ez). exists d, z. split; [now apply (RD w d bs)|].
      split; [|reflexivity].
      apply exists_get in Ez. destruct (d ++ [z]) as [|a b] eqn:Edz; [now apply snoc_nonempty in Edz|].
      cbn [fs_get] in Ez. destruct (entry (w_fs w) (a :: b)) as [nd|] eqn:En; [|congruence].
      apply entry_in in En. destruct Ff as (I & _). apply (inv_names _ _ _ I) in En.
      rewrite <- Edz in En. apply Forall_app in En as [_ En]. now inversion En.
    + intros ps. apply t_pre. intros f1 [Hps Ff].
      apply t_weaken with (P' := F) (Q' := fun _ => F) (E' := fun _ => F); auto; [|now intros f <-].
      apply p_operate. intros p Hp. specialize (Hps p Hp). apply p_bind.
      { unfold op_rm. apply p_bind; [apply p_get|]. intros f2.
        apply p_if; [apply p_ret|]. apply p_if; [apply p_ret|].
        apply p_bind; [|intros _; apply p_ret]. apply p_disk. intros f f' Ff1 E. injection E as <-. now apply F_rmtree. }
      intros r. destruct r as [b|]; [|apply p_ret]. apply p_bind; [|intros _; apply p_ret].
      unfold log_rm. apply p_bind; [apply p_read|]. intros d. apply p_dump.
Qed.
End Frame.

Lemma perform_frame matches r w w' out : sound w -> proper_request r -> perform matches r w = (w', out) ->
  settings w' = settings w
  /\ inv (run_directory w) (w_log w) (w_fs w')
  /\ forall z, z <> w_log w -> (forall p, run_path w p -> ~ within p z) -> fs_get (w_fs w') z = fs_get (w_fs w) z.
Proof.
  intros Hs Hr E.
  pose proof (p_perform w Hs (w_fs w) matches r Hr w eq_refl) as T. rewrite E in T. cbn [fst snd] in T.
  destruct T as (Es & _ & T).
  { split; [now apply sound_inv|auto]. }
  split; [assumption|].
  assert (F w (w_fs w) (w_fs w')) as [I G] by (destruct out; exact T).
  split; [assumption|]. intros z Nz Hz. apply G. intros [C|(p & Hp & W)]; [contradiction|].
  apply (Hz p); [|assumption]. now apply ofw_run_path.
Qed.
