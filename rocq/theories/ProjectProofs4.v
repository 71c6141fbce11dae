(** The effect of one request on every run. *)
From Verif Require Import PyBase PyLemmas ContainerModel ContainerSpec ContainerProofs ContainerProofs2
  FsModel FsProofs ProjectModel ProjectSpec ProjectProofs ProjectProofs2 ProjectProofs3.

Lemma selected_iff w bs d : proper_name (w_base w) -> In d (rundirs w bs) <-> selected w bs d.
Proof.
  intros [Nb _]. unfold rundirs, selected.
  assert (forall d, In d (listing w) <-> run_directory w d) as LI by (intro; now apply listing_iff).
  destruct bs as [|b0 bs].
  - rewrite LI. unfold run_directory. split.
    + intros [[? ?]|(b & ? & ?)]; [left; auto|right; exists b; auto].
    + intros [(? & ? & _)|(b & ? & ? & _)]; [left; auto|right; exists b; auto].
  - rewrite filter_In, LI. unfold run_directory.
    assert (forall p x y, name (parent (p ++ [x; y])) = x) as N2.
    { intros p x y. change [x; y] with ([x] ++ [y]). rewrite app_assoc. unfold parent, name.
      now rewrite removelast_last, last_last. }
    assert (forall p x, name (parent (p ++ [x])) = name p) as N1.
    { intros p x. unfold parent. now rewrite removelast_last. }
    split.
    + intros [[[? ->]|(b & ? & ->)] M]; apply (mem_spec str_eqb str_decides) in M.
      * left. rewrite N1 in M. auto.
      * right. exists b. rewrite N2 in M. auto.
    + intros [(? & -> & [C|M])|(b & ? & -> & [C|M])]; try discriminate; (split; [|apply (mem_spec str_eqb str_decides)]).
      * now left.
      * now rewrite N1.
      * right. eauto.
      * now rewrite N2.
Qed.
Lemma selected_dir w bs d : selected w bs d -> run_directory w d.
Proof. intros [(? & ? & _)|(b & ? & ? & _)]; [left; auto|right; exists b; auto]. Qed.

Lemma path_eq_dec (p q : path) : {p = q} + {p <> q}.
Proof. apply list_eq_dec. apply str_eq_dec. Qed.
Lemma pair_eq_dec (p q : path * path) : {p = q} + {p <> q}.
Proof. decide equality; apply path_eq_dec. Qed.

Lemma untouched_refl w p : untouched w w p. Proof. now split. Qed.
Lemma untouched_get w w' p : untouched w w' p -> fs_get (w_fs w') p = fs_get (w_fs w) p.
Proof. intros [H _]. specialize (H []). now rewrite app_nil_r in H. Qed.
Lemma untouched_dir w w' p : untouched w w' p -> is_dir (w_fs w') p = is_dir (w_fs w) p.
Proof. intros H. apply untouched_get in H. unfold is_dir. now rewrite H. Qed.
Lemma untouched_exists w w' p : untouched w w' p -> exists_ (w_fs w') p = exists_ (w_fs w) p.
Proof. intros H. apply untouched_get in H. unfold exists_. now rewrite H. Qed.

Lemma exn_eq_op e : e = operation_error \/ e <> operation_error.
Proof.
  unfold operation_error. destruct e; try (right; discriminate).
  destruct (string_dec name "PathOperationError") as [->|N]; [now left|right]. intro E. now injection E.
Qed.

Section Effects.
Variable w0 : world.
Hypothesis H0 : sound w0.
Let D := run_directory w0.
Let L := w_log w0.

Lemma in_run d x : D d -> proper_name x -> RP D (d ++ [x]).
Proof using. intros. now exists d, x. Qed.

(** moving *)
Section Mv.
Variables x y : str.
Hypothesis Hx : proper_name x.
Hypothesis Hy : proper_name y.
Definition mv_U (pq : path * path) : Prop := exists d, D d /\ pq = (d ++ [x], d ++ [y]).
Definition mv_foot (pq : path * path) : list path := [fst pq; snd pq].
Definition mv_did (w w' : world) (pq : path * path) : Prop := moved w w' (fst pq) (snd pq).

Lemma mv_U_rp pq p : mv_U pq -> In p (mv_foot pq) -> RP D p.
Proof using Hx Hy.
  intros (d & Hd & ->) [<-|[<-|[]]]; cbn; now apply in_run.
Qed.
Lemma mv_apart a b p q : mv_U a -> mv_U b -> a <> b -> In p (mv_foot a) -> In q (mv_foot b) -> p <> q.
Proof using.
  intros (d & Hd & ->) (d' & Hd' & ->) N Hp Hq E. apply N. 
  assert (d = d') as ->; [|reflexivity].
  destruct Hp as [<-|[<-|[]]], Hq as [<-|[<-|[]]]; cbn in E; now apply app_inj_tail in E as [? _].
Qed.

Lemma mv_chain_result force w ps w' : (forall a, In a ps -> mv_U a) -> chain mv_can (mv_eff w0) force w ps w' ->
  (forall a, mv_U a -> (In a ps -> mv_can w a = true -> mv_did w w' a)
                 /\ (~ In a ps \/ mv_can w a = false -> quiet mv_foot w w' a))
  /\ outside_quiet L w w' (flat_map mv_foot ps)
  /\ (force = false -> forall a, In a ps -> mv_can w a = true).
Proof using H0 Hx Hy.
  apply (chain_result L mv_can (mv_eff w0) mv_foot mv_did mv_U).
  - apply pair_eq_dec.
  - intros a b p q Ua Ub N Hp Hq. pose proof (mv_apart a b p q Ua Ub N Hp Hq) as Npq.
    apply (mv_U_rp a) in Hp; [|assumption]. apply (mv_U_rp b) in Hq; [|assumption]. split.
    + intro r. now apply (rp_apart w0).
    + intro E. apply Npq. now apply (rp_str w0 H0).
  - intros a p r Ua Hp. apply (rp_log w0 H0). now apply (mv_U_rp a).
  - intros w1 w2 [p q] (F & R & _). split.
    + intros z Nz Hz. rewrite F by assumption.
      rewrite (proj2 (strip_prefix_none q z)), (proj2 (at_or_below_false p z)); [reflexivity| |].
      * intros [r E]. apply (Hz p); [now left|]. now exists r.
      * intros [r E]. apply (Hz q); [right; now left|]. now exists r.
    + intros k Hk. rewrite R. rewrite (proj2 (str_eqb_neq (path_str q) k)), (proj2 (str_eqb_neq (path_str p) k)); [reflexivity| |].
      * intros <-. now apply (Hk p); [left|].
      * intros <-. now apply (Hk q); [right; left|].
  - intros w1 w2 [p q] Ua C (F & R & _). 
    pose proof (mv_U_rp _ p Ua (or_introl eq_refl)) as Hp.
    pose proof (mv_U_rp _ q Ua (or_intror (or_introl eq_refl))) as Hq.
    unfold mv_can in *. cbn [fst snd] in *. apply andb_true_iff in C as [C1 C2]. apply negb_true_iff in C2.
    assert (p <> q) as Npq.
    { intros ->. apply is_dir_get in C1. apply exists_false in C2. congruence. }
    assert (forall r, fs_get (w_fs w2) (p ++ r) = None) as Gp.
    { intro r. rewrite F by now apply (rp_log w0 H0).
      rewrite (proj2 (strip_prefix_none q (p ++ r))).
      - rewrite (proj2 (at_or_below_iff p (p ++ r))); [reflexivity|]. now exists r.
      - exact (rp_apart w0 p q r Hp Hq Npq). }
    split.
    + unfold mv_did, moved. cbn [fst snd]. split; [|split; [exact Gp|split]].
      * intro r. rewrite F by now apply (rp_log w0 H0).
        now rewrite (proj2 (strip_prefix_some q (q ++ r) r)).
      * now rewrite R, str_eqb_refl.
      * rewrite R, str_eqb_refl. rewrite (proj2 (str_eqb_neq (path_str q) (path_str p))); [reflexivity|].
        intros E. apply Npq. symmetry. now apply (rp_str w0 H0).
    + unfold is_dir. specialize (Gp []). rewrite app_nil_r in Gp. now rewrite Gp.
  - intros w1 w2 [p q] _ Q. unfold mv_can. cbn [fst snd].
    rewrite (untouched_dir w1 w2 p), (untouched_exists w1 w2 q); auto.
    + apply Q. right. now left.
    + apply Q. now left.
  - intros w1 w2 w3 [p q] _ (A1 & A2 & A3 & A4) Q. unfold mv_did, moved in *. cbn [fst snd] in *.
    destruct (Q p) as [P1 P2]; [now left|]. destruct (Q q) as [Q1 Q2]; [right; now left|].
    split; [|split; [|split]]; try intro r; congruence.
  - intros w1 w2 w3 [p q] _ Q (A1 & A2 & A3 & A4). unfold mv_did, moved in *. cbn [fst snd] in *.
    destruct (Q p) as [P1 P2]; [now left|]. destruct (Q q) as [Q1 Q2]; [right; now left|].
    split; [|split; [|split]]; try intro r; congruence.
Qed.

Lemma mv_all bs errors w w' out : Inv w0 w -> project_mv x y bs errors w = (w', out) ->
  exists ps, (forall a, In a ps -> mv_U a)
  /\ (forall a, In a ps -> exists d, selected w bs d /\ a = (d ++ [x], d ++ [y]))
  /\ match out with
     | Ok _ => (forall d, selected w bs d -> In (d ++ [x], d ++ [y]) ps) /\ chain mv_can (mv_eff w0) (negb errors) w ps w'
     | Raise e => e = operation_error -> errors = true /\ chain mv_can (mv_eff w0) false w ps w'
                  /\ exists d, selected w bs d /\ mv_can w' (d ++ [x], d ++ [y]) = false
     end.
Proof using H0 Hx Hy.
  intros HI E. unfold project_mv in E. unfold mbind at 1, get in E.
  assert (proper_name (w_base w)) as Nb.
  { destruct HI as (Es & Hs & _). apply Hs. }
  set (ps := define_two w x y bs) in *.
  assert (forall a, In a ps <-> exists d, selected w bs d /\ a = (d ++ [x], d ++ [y])) as Hps.
  { intro a. unfold ps, define_two. rewrite in_map_iff. split; intros (d & A & B); exists d.
    - split; [|now symmetry]. now apply selected_iff.
    - split; [now symmetry|]. now apply selected_iff. }
  assert (forall a, In a ps -> mv_U a) as HU.
  { intros a Ha. apply Hps in Ha as (d & Hd & ->). exists d. split; [|reflexivity].
    apply (settings_run_directory w w0 d); [apply HI|]. now apply (selected_dir w bs). }
  pose proof (operate_chain mv_can (mv_eff w0) op_mv (negb errors)
    (fun pq => log_mv (path_str (fst pq)) (path_str (snd pq))) (Inv w0) ps) as OC.
  assert (forall (a : path * path) (w w' : world) (out : result bool),
        In a ps -> Inv w0 w ->
        (r <<- op_mv a;;
         match r with
         | Some b => _ <<- log_mv (path_str (fst b)) (path_str (snd b));; ret true
         | None => ret false
         end) w = (w', out) ->
        match out with
        | Ok true => mv_can w a = true /\ mv_eff w0 w w' a /\ Inv w0 w'
        | Ok false => mv_can w a = false /\ w' = w
        | Raise e => e <> operation_error
        end) as St.
  { intros [p q] v v' o Ha Hv Ev. apply HU in Ha.
    apply (mv_step_result w0 H0 p q v v' o); auto.
    - apply (mv_U_rp _ p Ha). now left.
    - apply (mv_U_rp _ q Ha). right. now left. }
  specialize (OC St w w' out HI E). destruct out as [u|e].
  - exists ps. split; [assumption|]. split; [intros a Ha; now apply Hps|]. split; [|assumption].
    intros d Hd. apply Hps. eauto.
  - destruct (exn_eq_op e) as [->|Ne].
    + destruct (OC eq_refl) as (Hf & done & a & rest & Eps & Ch & Ca).
      assert (forall b, In b done -> In b ps) as Sub by (intros b Hb; rewrite Eps; apply in_or_app; now left).
      exists done. split; [auto|]. split; [intros b Hb; apply Hps; auto|]. intros _.
      rewrite Hf in Ch. split; [now apply negb_false_iff|]. split; [assumption|].
      assert (In a ps) as Ha by (rewrite Eps; apply in_or_app; right; now left).
      apply Hps in Ha as (d & Hd & ->). eauto.
    + exists []. split; [intros a []|]. split; [intros a []|]. intros ->. contradiction.
Qed.
End Mv.

(** removing and running: one path per step *)
Definition one_foot (p : path) : list path := [p].
Lemma one_apart (a b p q : path) : RP D a -> RP D b -> a <> b -> In p (one_foot a) -> In q (one_foot b) ->
  (forall r, ~ within q (p ++ r)) /\ path_str p <> path_str q.
Proof using H0.
  intros Ua Ub N [<-|[]] [<-|[]]. split.
  - intro r. now apply (rp_apart w0).
  - intro E. apply N. now apply (rp_str w0 H0).
Qed.

Lemma rm_chain_result force w ps w' : (forall a, In a ps -> RP D a) -> chain rm_can (rm_eff w0) force w ps w' ->
  (forall a, RP D a -> (In a ps -> rm_can w a = true -> removed w w' a)
                 /\ (~ In a ps \/ rm_can w a = false -> quiet one_foot w w' a))
  /\ outside_quiet L w w' (flat_map one_foot ps)
  /\ (force = false -> forall a, In a ps -> rm_can w a = true).
Proof using H0.
  apply (chain_result L rm_can (rm_eff w0) one_foot removed (RP D)).
  - apply path_eq_dec.
  - apply one_apart.
  - intros a p r Ua [<-|[]]. now apply (rp_log w0 H0).
  - intros w1 w2 p (F & R). split.
    + intros z Nz Hz. rewrite F by assumption. rewrite (proj2 (at_or_below_false p z)); [reflexivity|].
      intros [r E]. apply (Hz p); [now left|]. now exists r.
    + intros k Hk. rewrite R. rewrite (proj2 (str_eqb_neq (path_str p) k)); [reflexivity|].
      intros <-. now apply (Hk p); [left|].
  - intros w1 w2 p Ua C (F & R).
    assert (forall r, fs_get (w_fs w2) (p ++ r) = None) as Gp.
    { intro r. rewrite F by now apply (rp_log w0 H0).
      rewrite (proj2 (at_or_below_iff p (p ++ r))); [reflexivity|]. now exists r. }
    split.
    + split; [exact Gp|]. now rewrite R, str_eqb_refl.
    + unfold rm_can, is_dir. specialize (Gp []). rewrite app_nil_r in Gp. now rewrite Gp.
  - intros w1 w2 p _ Q. unfold rm_can. apply untouched_dir. apply Q. now left.
  - intros w1 w2 w3 p _ (A1 & A2) Q. destruct (Q p) as [P1 P2]; [now left|]. split; [intro r|]; congruence.
  - intros w1 w2 w3 p _ Q (A1 & A2). now split.
Qed.

Definition star (pattern : str) : str := match pattern with [] => s "*" | _ => pattern end.

Lemma rm_all matches pat bs errors w w' out : Inv w0 w -> project_rm matches pat bs errors w = (w', out) ->
  exists ps, (forall a, In a ps -> RP D a)
  /\ (forall a, In a ps -> exists d x, selected w bs d /\ a = d ++ [x] /\ matches (star pat) x = true /\ exists_ (w_fs w) a = true)
  /\ match out with
     | Ok _ => (forall d x, selected w bs d -> matches (star pat) x = true -> exists_ (w_fs w) (d ++ [x]) = true -> In (d ++ [x]) ps)
               /\ chain rm_can (rm_eff w0) (negb errors) w ps w'
     | Raise e => e = operation_error -> errors = true /\ chain rm_can (rm_eff w0) false w ps w'
     end.
Proof using H0.
  intros HI E. unfold project_rm in E. unfold mbind at 1, get in E.
  assert (proper_name (w_base w)) as Nb.
  { destruct HI as (Es & Hs & _). apply Hs. }
  set (ps := define_pattern matches w pat bs) in *.
  assert (forall a, In a ps <-> exists d x, selected w bs d /\ a = d ++ [x] /\ matches (star pat) x = true /\ exists_ (w_fs w) a = true) as Hps.
  { intro a. unfold ps, define_pattern. rewrite in_flat_map. fold (star pat). setoid_rewrite glob_spec.
    split.
    - intros (d & A & x & B). exists d, x. split; [now apply selected_iff|exact B].
    - intros (d & x & A & B). exists d. split; [now apply selected_iff|]. now exists x. }
  assert (forall a, In a ps -> RP D a) as HU.
  { intros a Ha. apply Hps in Ha as (d & x & Hd & -> & _ & Ez). exists d, x.
    split; [apply (settings_run_directory w w0 d); [apply HI|]; now apply (selected_dir w bs)|].
    split; [|reflexivity]. apply exists_get in Ez.
    destruct (d ++ [x]) as [|a b] eqn:Edz; [now apply snoc_nonempty in Edz|].
    cbn [fs_get] in Ez. destruct (entry (w_fs w) (a :: b)) as [nd|] eqn:En; [|congruence].
    apply entry_in in En. apply (sound_names w (proj1 (proj2 HI))) in En.
    rewrite <- Edz in En. apply Forall_app in En as [_ En]. now inversion En. }
  pose proof (operate_chain rm_can (rm_eff w0) op_rm (negb errors) (fun p => log_rm (path_str p)) (Inv w0) ps
    (fun a v v' o Ha Hv Ev => rm_step_result w0 H0 a v v' o (HU a Ha) Hv Ev) w w' out HI E) as OC.
  destruct out as [u|e].
  - exists ps. split; [assumption|]. split; [intros a Ha; now apply Hps|]. split; [|assumption].
    intros d x Hd Hm He. apply Hps. eauto 10.
  - destruct (exn_eq_op e) as [->|Ne].
    + destruct (OC eq_refl) as (Hf & done & a & rest & Eps & Ch & Ca).
      assert (forall b, In b done -> In b ps) as Sub by (intros b Hb; rewrite Eps; apply in_or_app; now left).
      exists done. split; [auto|]. split; [intros b Hb; apply Hps; auto|]. intros _.
      rewrite Hf in Ch. split; [now apply negb_false_iff|]. assumption.
    + exists []. split; [intros a []|]. split; [intros a []|]. intros ->. contradiction.
Qed.

Lemma run_chain_result o force w ps w' : (forall a, In a ps -> RP D a) -> chain run_can (run_eff w0 o) force w ps w' ->
  (forall a, RP D a -> (In a ps -> run_can w a = true -> attempted o w w' a)
                 /\ (~ In a ps \/ run_can w a = false -> quiet one_foot w w' a))
  /\ outside_quiet L w w' (flat_map one_foot ps)
  /\ (force = false -> forall a, In a ps -> run_can w a = true).
Proof using H0.
  apply (chain_result L run_can (run_eff w0 o) one_foot (attempted o) (RP D)).
  - apply path_eq_dec.
  - apply one_apart.
  - intros a p r Ua [<-|[]]. now apply (rp_log w0 H0).
  - intros w1 w2 p (F & R & _). split.
    + intros z Nz Hz. apply F; auto. apply Hz. now left.
    + intros k Hk. apply R. apply Hk. now left.
  - intros w1 w2 p Ua C (F & R & A). split; [exact A|]. unfold run_can.
    destruct A as (A & _). apply negb_false_iff. apply exists_get. apply is_dir_get in A. congruence.
  - intros w1 w2 p _ Q. unfold run_can. f_equal. apply untouched_exists. apply Q. now left.
  - intros w1 w2 w3 p _ (A1 & A2 & A3) Q. pose proof (Q p (or_introl eq_refl)) as U. split; [|split].
    + now rewrite (untouched_dir w2 w3 p U).
    + intro Z. destruct (A2 Z) as (B & cmd & Hc). split; [now rewrite (untouched_dir w2 w3 p U)|].
      exists cmd. destruct U as [_ ->]. exact Hc.
    + intro Z. destruct U as [_ ->]. now apply A3.
  - intros w1 w2 w3 p _ Q (A1 & A2 & A3). pose proof (Q p (or_introl eq_refl)) as U. split; [|split]; auto.
    intro Z. rewrite A3 by assumption. apply U.
Qed.

Lemma run_all o c x bs np errors w w' out : proper_name x ->
  (forall p y t, In (y, t) (output_files o p) -> proper_name y) ->
  Inv w0 w -> project_run o c x bs np errors w = (w', out) ->
  exists ps, (forall a, In a ps -> RP D a)
  /\ (forall a, In a ps -> exists d, selected w bs d /\ a = d ++ [x])
  /\ match out with
     | Ok _ => (forall d, selected w bs d -> In (d ++ [x]) ps) /\ chain run_can (run_eff w0 o) (negb errors) w ps w'
     | Raise e => e = operation_error -> errors = true /\ chain run_can (run_eff w0 o) false w ps w'
                  /\ exists d, selected w bs d /\ run_can w' (d ++ [x]) = false
     end.
Proof using H0.
  intros Hx Hf HI E. unfold project_run in E. unfold mbind at 1, get in E.
  assert (proper_name (w_base w)) as Nb.
  { destruct HI as (Es & Hs & _). apply Hs. }
  set (ps := define_one w x bs) in *.
  assert (forall a, In a ps <-> exists d, selected w bs d /\ a = d ++ [x]) as Hps.
  { intro a. unfold ps, define_one. rewrite in_map_iff. split; intros (d & A & B); exists d.
    - split; [|now symmetry]. now apply selected_iff.
    - split; [now symmetry|]. now apply selected_iff. }
  assert (forall a, In a ps -> RP D a) as HU.
  { intros a Ha. apply Hps in Ha as (d & Hd & ->). exists d, x. split; [|now split].
    apply (settings_run_directory w w0 d); [apply HI|]. now apply (selected_dir w bs). }
  pose proof (operate_chain run_can (run_eff w0 o) op_mkdir (negb errors) (create_run o c np) (Inv w0) ps
    (fun a v v' r Ha Hv Ev => run_step_result w0 H0 o c np a v v' r (HU a Ha) (Hf a) Hv Ev) w w' out HI E) as OC.
  destruct out as [u|e].
  - exists ps. split; [assumption|]. split; [intros a Ha; now apply Hps|]. split; [|assumption].
    intros d Hd. apply Hps. eauto.
  - destruct (exn_eq_op e) as [->|Ne].
    + destruct (OC eq_refl) as (Hfo & done & a & rest & Eps & Ch & Ca).
      assert (forall b, In b done -> In b ps) as Sub by (intros b Hb; rewrite Eps; apply in_or_app; now left).
      exists done. split; [auto|]. split; [intros b Hb; apply Hps; auto|]. intros _.
      rewrite Hfo in Ch. split; [now apply negb_false_iff|]. split; [assumption|].
      assert (In a ps) as Ha by (rewrite Eps; apply in_or_app; right; now left).
      apply Hps in Ha as (d & Hd & ->). eauto.
    + exists []. split; [intros a []|]. split; [intros a []|]. intros ->. contradiction.
Qed.
End Effects.
