(** What each request does to each run. *)
From Verif Require Import PyBase PyLemmas ContainerModel ContainerSpec ContainerProofs ContainerProofs2
  FsModel FsProofs ProjectModel ProjectSpec ProjectProofs ProjectProofs2.

(** ** Chains of steps *)
Section Chain.
Context {A : Type} (can : world -> A -> bool) (eff : world -> world -> A -> Prop).
Inductive chain (force : bool) : world -> list A -> world -> Prop :=
| chain_nil w : chain force w [] w
| chain_skip w a l w' : force = true -> can w a = false -> chain force w l w' -> chain force w (a :: l) w'
| chain_do w a l w1 w' : can w a = true -> eff w w1 a -> chain force w1 l w' -> chain force w (a :: l) w'.

Lemma operate_chain {B} (op : A -> M (option B)) force (body : B -> M unit) (I : world -> Prop) ps :
  (forall a w w' out, In a ps -> I w ->
     (r <<- op a ;; match r with Some b => _ <<- body b ;; ret true | None => ret false end) w = (w', out) ->
     match out with
     | Ok true => can w a = true /\ eff w w' a /\ I w'
     | Ok false => can w a = false /\ w' = w
     | Raise e => e <> operation_error
     end) ->
  forall w w' out, I w -> operate op force body ps w = (w', out) ->
  match out with
  | Ok _ => chain force w ps w'
  | Raise e => e = operation_error ->
      force = false /\ exists done a rest, ps = done ++ a :: rest /\ chain force w done w' /\ can w' a = false
  end.
Proof.
  induction ps as [|a ps IH]; intros H w w' out Hw E; cbn [operate] in E.
  - injection E as <- <-. constructor.
  - assert (forall b w w' out, In b ps -> I w ->
     (r <<- op b ;; match r with Some b => _ <<- body b ;; ret true | None => ret false end) w = (w', out) ->
     match out with
     | Ok true => can w b = true /\ eff w w' b /\ I w'
     | Ok false => can w b = false /\ w' = w
     | Raise e => e <> operation_error
     end) as H'.
    { intros b v v' o Hb. apply H. now right. }
    specialize (IH H'). specialize (H a w).
    unfold mbind in E, H. destruct (op a w) as [w1 [[b|]|e]] eqn:Ea.
    + destruct (body b w1) as [w2 [u|e]] eqn:Eb.
      * destruct (H w2 (Ok true) (or_introl eq_refl) Hw eq_refl) as (C & F & I2).
        specialize (IH w2 w' out I2 E). destruct out as [u'|e].
        -- now apply chain_do with w2.
        -- intros He. destruct (IH He) as (Hf & done & x & rest & -> & Ch & Cx). split; [assumption|].
           exists (a :: done), x, rest. repeat split; auto. now apply chain_do with w2.
      * injection E as <- <-. intros He.
        now apply (H w2 (Raise e) (or_introl eq_refl) Hw eq_refl) in He.
    + destruct (H w1 (Ok false) (or_introl eq_refl) Hw eq_refl) as (C & ->).
      destruct force.
      * specialize (IH w w' out Hw E). destruct out as [u'|e].
        -- now apply chain_skip.
        -- intros He. destruct (IH He) as (Hf & _). discriminate.
      * injection E as <- <-. intros _. split; [reflexivity|].
        exists [], a, ps. repeat split; auto. constructor.
    + injection E as <- <-. intros He.
      now apply (H w1 (Raise e) (or_introl eq_refl) Hw eq_refl) in He.
Qed.
End Chain.

(** ** Footprints *)
Section Footprint.
Context {A : Type} (L : path) (can : world -> A -> bool) (eff : world -> world -> A -> Prop)
  (foot : A -> list path) (did : world -> world -> A -> Prop) (U : A -> Prop).
Hypothesis A_dec : forall a b : A, {a = b} + {a <> b}.
Definition quiet (w w' : world) (a : A) : Prop := forall p, In p (foot a) -> untouched w w' p.
(** nothing changes outside the footprint and the log file *)
Definition outside_quiet (w w' : world) (fp : list path) : Prop :=
  (forall z, z <> L -> (forall p, In p fp -> ~ within p z) -> fs_get (w_fs w') z = fs_get (w_fs w) z)
  /\ (forall k, (forall p, In p fp -> k <> path_str p) -> record_of w' k = record_of w k).
Hypothesis foot_apart : forall a b p q, U a -> U b -> a <> b -> In p (foot a) -> In q (foot b) ->
  (forall r, ~ within q (p ++ r)) /\ path_str p <> path_str q.
Hypothesis foot_log : forall a p r, U a -> In p (foot a) -> p ++ r <> L.
Hypothesis eff_out : forall w w' a, eff w w' a -> outside_quiet w w' (foot a).
Hypothesis eff_did : forall w w' a, U a -> can w a = true -> eff w w' a -> did w w' a /\ can w' a = false.
Hypothesis can_quiet : forall w w' a, U a -> quiet w w' a -> can w' a = can w a.
Hypothesis did_right : forall w w1 w' a, U a -> did w w1 a -> quiet w1 w' a -> did w w' a.
Hypothesis did_left : forall w w1 w' a, U a -> quiet w w1 a -> did w1 w' a -> did w w' a.

Lemma quiet_trans w w1 w' a : quiet w w1 a -> quiet w1 w' a -> quiet w w' a.
Proof using. intros H1 H2 p Hp. destruct (H1 p Hp), (H2 p Hp). split; [intro r|]; congruence. Qed.

Lemma chain_result force w ps w' : (forall a, In a ps -> U a) -> chain can eff force w ps w' ->
  (forall a, U a -> (In a ps -> can w a = true -> did w w' a)
                 /\ (~ In a ps \/ can w a = false -> quiet w w' a))
  /\ outside_quiet w w' (flat_map foot ps)
  /\ (force = false -> forall a, In a ps -> can w a = true).
Proof using All.
  intros HU C. induction C as [|w a l w' F Ca C IH|w a l w1 w' Ca E C IH].
  - split; [intros b Ub; split|split; [split|]]; auto; try contradiction.
    intros _ p _. now split.
  - destruct IH as (IH1 & IH2 & IH3); [intros b Hb; apply HU; now right|].
    split; [intros a0 H; split|split; [split|congruence]].
    + intros [<-|Hb] Cb; [congruence|]. now apply IH1.
    + intros [Nb|Cb].
      * apply (IH1 a0); auto. left. intro. apply Nb. now right.
      * apply (IH1 a0); auto.
    + intros z Nz Hz. apply IH2; auto. intros p Hp. apply Hz. cbn. apply in_or_app. now right.
    + intros k Hk. apply IH2. intros p Hp. apply Hk. cbn. apply in_or_app. now right.
  - destruct IH as (IH1 & IH2 & IH3); [intros b Hb; apply HU; now right|].
    assert (U a) as Ua by (apply HU; now left).
    destruct (eff_did w w1 a Ua Ca E) as (Did & Cn).
    destruct (eff_out w w1 a E) as (O1 & O2).
    assert (forall b, U b -> b <> a -> quiet w w1 b) as Qb.
    { intros b Ub N p Hp. split.
      - intro r. apply O1; [now apply (foot_log b)|]. intros q Hq.
        apply (foot_apart b a p q Ub Ua N Hp Hq).
      - apply O2. intros q Hq. apply (foot_apart b a p q Ub Ua N Hp Hq). }
    split; [intros a0 H; split|split; [split|]].
    + intros Hb Cb. destruct (A_dec a0 a) as [->|N].
      * apply (did_right w w1 w' a); auto. apply (IH1 a); auto.
      * destruct Hb as [<-|Hb]; [contradiction|]. apply (did_left w w1 w' a0); auto.
        apply (IH1 a0); auto. now rewrite (can_quiet w w1 a0 H (Qb a0 H N)).
    + intros Hb. destruct (A_dec a0 a) as [->|N].
      * destruct Hb as [Nb|Cb]; [|congruence]. exfalso. apply Nb. now left.
      * apply (quiet_trans w w1 w' a0); [now apply Qb|]. apply (IH1 a0); auto.
        rewrite (can_quiet w w1 a0 H (Qb a0 H N)). destruct Hb as [Nb|Cb]; [left|now right].
        intro. apply Nb. now right.
    + intros z Nz Hz. rewrite (proj1 IH2), O1; auto.
      * intros p Hp. apply Hz. cbn. apply in_or_app. now left.
      * intros p Hp. apply Hz. cbn. apply in_or_app. now right.
    + intros k Hk. rewrite (proj2 IH2), O2; auto.
      * intros p Hp. apply Hk. cbn. apply in_or_app. now left.
      * intros p Hp. apply Hk. cbn. apply in_or_app. now right.
    + intros Hf b [<-|Hb]; [assumption|]. specialize (IH3 Hf b Hb).
      destruct (A_dec b a) as [->|N]; [congruence|].
      assert (U b) as Ub by (apply HU; now right).
      now rewrite (can_quiet w w1 b Ub (Qb b Ub N)) in IH3.
Qed.
End Footprint.

(** ** Results of reading and writing the log *)
Lemma log_read_sound w : sound w -> exists d, log_read w = (w, Ok d) /\ log_contents w = Some d.
Proof.
  intros H. destruct (sound_log_get w H) as [d G]. exists d. split.
  - unfold log_read, mbind, get, lift, read. cbn. now rewrite G.
  - unfold log_contents. now rewrite G.
Qed.

Lemma disk_result op w w' out : disk op w = (w', out) ->
  match out with
  | Ok _ => exists f', op (w_fs w) = Ok f' /\ w_fs w' = f' /\ settings w' = settings w
  | Raise e => w' = w /\ (e = killed \/ op (w_fs w) = Raise e)
  end.
Proof.
  unfold disk, mbind, get, lift, set_fs. cbn. destruct (op (w_fs w)) as [f'|e] eqn:E.
  - destruct (w_steps w); intro H; injection H as <- <-; cbn.
    + auto.
    + exists f'. auto.
  - intro H; injection H as <- <-. auto.
Qed.

Lemma log_dump_result d w w' out : log_dump d w = (w', out) ->
  match out with
  | Ok _ => settings w' = settings w /\ log_contents w' = Some d
            /\ (forall z, z <> w_log w -> fs_get (w_fs w') z = fs_get (w_fs w) z)
  | Raise e => e <> operation_error
  end.
Proof.
  unfold log_dump. unfold mbind at 1, get. 
  destruct (disk (fun f => write f (w_log w) (Text [])) w) as [w1 r1] eqn:E1.
  unfold mbind. rewrite E1. apply disk_result in E1. destruct r1 as [u|e].
  - destruct E1 as (f1 & W1 & Ef1 & S1). intro E2. apply disk_result in E2. destruct out as [u'|e].
    + destruct E2 as (f2 & W2 & Ef2 & S2). apply write_ok in W1 as (-> & _ & _ & N). apply write_ok in W2 as (-> & _).
      assert (w_log w' = w_log w) as EL by (unfold settings in *; congruence).
      split; [congruence|]. rewrite Ef2, Ef1. split.
      * unfold log_contents. rewrite Ef2, EL, Ef1, get_put_same by auto. reflexivity.
      * intros z Hz. now rewrite !get_put_other by auto.
    + destruct E2 as (_ & [->|W]); [discriminate|]. now apply write_err in W.
  - intro E. injection E as <- <-. destruct E1 as (_ & [->|W]); [discriminate|]. now apply write_err in W.
Qed.

Definition found (d : log_dict) (k : str) : option json :=
  match find (fun e => str_eqb (fst e) k) d with Some e => Some (snd e) | None => None end.
Lemma record_found w d k : log_contents w = Some d -> record_of w k = found d k.
Proof. intro H. unfold record_of, found. now rewrite H. Qed.
Lemma found_cons a u d k : found ((a, u) :: d) k = if str_eqb a k then Some u else found d k.
Proof. unfold found. cbn [find fst]. now destruct (str_eqb a k). Qed.
Lemma found_put d k v k' : found (dict_put str_eqb d k v) k' = if str_eqb k k' then Some v else found d k'.
Proof.
  induction d as [|[a u] d IH]; cbn [dict_put].
  - now rewrite found_cons.
  - destruct (str_eqb a k) eqn:E; rewrite !found_cons.
    + apply str_eqb_eq in E as ->. now destruct (str_eqb k k').
    + rewrite IH. destruct (str_eqb a k') eqn:E1; [|reflexivity].
      destruct (str_eqb k k') eqn:E2; [|reflexivity].
      apply str_eqb_eq in E1, E2. subst. rewrite str_eqb_refl in E. discriminate.
Qed.
Lemma found_without d k k' : found (without_key d k) k' = if str_eqb k k' then None else found d k'.
Proof.
  induction d as [|[a u] d IH]; cbn [without_key filter fst].
  - now destruct (str_eqb k k').
  - unfold without_key in IH. destruct (str_eqb a k) eqn:E; cbn [negb]; rewrite !found_cons.
    + apply str_eqb_eq in E as ->. rewrite IH. now destruct (str_eqb k k').
    + rewrite IH. destruct (str_eqb a k') eqn:E1; [|reflexivity].
      destruct (str_eqb k k') eqn:E2; [|reflexivity].
      apply str_eqb_eq in E1, E2. subst. rewrite str_eqb_refl in E. discriminate.
Qed.
Lemma lookup_found d k v : lookup str_eqb d k = Ok v -> found d k = Some v.
Proof. rewrite lookup_find. unfold found. destruct find; [|discriminate]. congruence. Qed.

Definition Inv (w0 w : world) : Prop := settings w = settings w0 /\ sound w /\ logged_runs_exist w.

Section Steps.
Variable w0 : world.
Hypothesis H0 : sound w0.
Let D := run_directory w0.
Let L := w_log w0.

Lemma St_of w : settings w = settings w0 -> S0 L (w_root w0) (w_branches w0) (w_base w0) (w_attrs w0) w.
Proof using. intros. exact H. Qed.

Lemma Inv_J w : Inv w0 w -> J D L nothing anything (w_fs w).
Proof using.
  intros (E & Hs & Hl).
  assert (J (run_directory w) (w_log w) nothing anything (w_fs w)) as HJ.
  { apply J_of; auto. intros p _ _ N. exfalso. apply N. exact Logic.I. }
  assert (w_log w = L) as EL by (unfold settings in E; unfold L; congruence). rewrite EL in HJ.
  destruct HJ as (I & d & Ed & A & B).
  assert (forall p, RP (run_directory w) p <-> RP D p) as RPi.
  { intro p. unfold RP. split; intros (d' & x & Hd & R); exists d', x; split; auto;
    now apply (settings_run_directory _ _ d' E). }
  split.
  - destruct I as [I1 I2 I3 I4]. constructor; auto.
    + intros q (d' & Hd & Hq). apply I1. exists d'. split; auto. now apply (settings_run_directory _ _ d' E).
    + intros p Hp. apply I2. now apply RPi.
  - exists d. repeat split; auto.
    + intros k Hk. destruct (A k Hk) as [?|[?|(p & Hp & R)]]; auto. right; right. exists p. split; auto. now apply RPi.
    + intros p Hp. apply B. now apply RPi.
Qed.
Lemma J_Inv w : settings w = settings w0 -> J D L nothing anything (w_fs w) -> Inv w0 w.
Proof using H0.
  intros E HJ. destruct (J_back w0 w _ _ H0 E HJ) as (A & B & _). split; [assumption|]. split; [assumption|].
  intros k Hk Nk. destruct (B k Hk) as [?|[[]|?]]; [contradiction|assumption].
Qed.

Lemma D_len d : D d -> length d = depth w0. Proof using. apply run_directory_len. Qed.
Lemma rp_ne p : RP D p -> p <> [].
Proof using. intros (d & x & _ & _ & ->). apply snoc_nonempty. Qed.
Lemma rp_len p : RP D p -> length p = S (depth w0).
Proof using. intros (d & x & Hd & _ & ->). rewrite app_length, (D_len d Hd). cbn. lia. Qed.
Lemma rp_log p r : RP D p -> p ++ r <> L.
Proof using H0.
  intros (d & x & Hd & _ & ->) E. apply (sound_log_place w0 H0 d Hd). exists ([x] ++ r). unfold L in E. rewrite <- E.
  now rewrite app_assoc.
Qed.
Lemma rp_proper p : RP D p -> proper_path p.
Proof using H0. intros (d & x & Hd & Hx & ->). apply Forall_app. split; [now apply (run_directory_proper w0)|]. now constructor. Qed.
Lemma rp_str p q : RP D p -> RP D q -> path_str p = path_str q -> p = q.
Proof using H0. intros Hp Hq. apply path_str_inj; now apply rp_proper. Qed.
Lemma rp_apart p q r : RP D p -> RP D q -> p <> q -> ~ within q (p ++ r).
Proof using.
  intros Hp Hq N [t E]. apply rp_len in Hp, Hq. apply N. 
  rewrite <- Hq in Hp. clear Hq. revert q N E Hp. induction p as [|a p IH]; intros [|b q] N E Hl; try discriminate; auto.
  cbn in E, Hl. injection E as -> E. f_equal. apply IH; auto. congruence.
Qed.
Lemma rp_not_within p q : RP D p -> RP D q -> p <> q -> ~ (exists r, q = p ++ r).
Proof using.
  intros Hp Hq N [r R]. apply (rp_apart q p [] Hq Hp); [congruence|]. rewrite app_nil_r. now exists r.
Qed.

(** moving *)
Definition mv_can (w : world) (pq : path * path) : bool :=
  is_dir (w_fs w) (fst pq) && negb (exists_ (w_fs w) (snd pq)).
Definition mv_eff (w w' : world) (pq : path * path) : Prop :=
  let (p, q) := pq in
  (forall z, z <> L -> fs_get (w_fs w') z = match strip_prefix q z with
                | Some r => fs_get (w_fs w) (p ++ r)
                | None => if at_or_below p z then None else fs_get (w_fs w) z
                end)
  /\ (forall k, record_of w' k = if str_eqb (path_str q) k then record_of w (path_str p)
                               else if str_eqb (path_str p) k then None else record_of w k)
  /\ record_of w (path_str p) <> None.

Lemma mv_step_result p q w w' out : RP D p -> RP D q -> Inv w0 w ->
  (r <<- op_mv (p, q) ;;
   match r with Some pq => _ <<- log_mv (path_str (fst pq)) (path_str (snd pq)) ;; ret true | None => ret false end) w
  = (w', out) ->
  match out with
  | Ok true => mv_can w (p, q) = true /\ mv_eff w w' (p, q) /\ Inv w0 w'
  | Ok false => mv_can w (p, q) = false /\ w' = w
  | Raise e => e <> operation_error
  end.
Proof using H0.
  intros Hp Hq HI E.
  pose proof (t_mv_step D L (depth w0) (fun d Hd => run_directory_len w0 d Hd) (run_directory_proper w0 H0)
    (sound_log_place w0 H0) (sound_log_proper w0 H0) (sound_log_ne w0 H0) (w_root w0) (w_branches w0) (w_base w0)
    (w_attrs w0) (sound_config w0 H0) (sound_output w0 H0) anything p q Hp Hq w (St_of w (proj1 HI)) (Inv_J w HI)) as T.
  rewrite E in T. cbn [fst snd] in T. destruct T as (Es & _ & T).
  assert (forall b, out = Ok b -> Inv w0 w') as Hinv.
  { intros b ->. apply J_Inv; [destruct HI; congruence|exact T]. }
  destruct HI as (Es0 & Hs & Hl). clear T.
  unfold mbind at 1 in E. unfold op_mv in E. unfold mbind at 1, get in E. unfold mv_can. cbn [fst snd].
  unfold is_dir, exists_ in *.
  destruct (fs_get (w_fs w) p) as [np|] eqn:Gp; cbn in E; [|injection E as <- <-; auto].
  destruct np as [|c]; cbn in E; [|injection E as <- <-; auto].
  destruct (fs_get (w_fs w) q) as [nq|] eqn:Gq; cbn in E; [injection E as <- <-; auto|].
  unfold mbind in E.
  destruct (disk (fun f => rename f p q) w) as [w1 r1] eqn:E1. apply disk_result in E1. destruct r1 as [u|e].
  2: { injection E as <- <-. destruct E1 as (_ & [->|R]); [discriminate|]. now apply rename_err in R. }
  destruct E1 as (f1 & Rn & Ef1 & S1). cbn [fst snd] in E.
  assert (p <> q) as Npq by (intros ->; congruence).
  pose proof (fun z => get_rename _ _ _ _ z Rn (rp_ne p Hp) (rp_not_within q p Hq Hp (not_eq_sym Npq))) as G.
  assert (w_log w = L) as EL by (unfold settings in Es0; unfold L; congruence).
  assert (w_log w1 = L) as EL1 by (unfold settings in S1; congruence).
  destruct (log_read_sound w Hs) as (d & Rd & Ld).
  assert (fs_get (w_fs w1) L = fs_get (w_fs w) L) as GL.
  { rewrite Ef1, G.
    rewrite (proj2 (strip_prefix_none q L)), (proj2 (at_or_below_false p L)); [reflexivity| |].
    - intros [r R]. now apply (rp_log p r Hp).
    - intros [r R]. now apply (rp_log q r Hq). }
  assert (log_read w1 = (w1, Ok d)) as Rd1.
  { unfold log_read, mbind, get, lift, read. cbn. rewrite EL1, GL.
    unfold log_contents in Ld. rewrite EL in Ld.
    destruct (fs_get (w_fs w) L) as [[|[|[| | |d']]]|]; try discriminate. injection Ld as ->. reflexivity. }
  unfold ret at 1 in E. cbn beta iota delta [fst snd] in E. unfold log_mv, mbind in E. rewrite Rd1 in E.
  destruct (lookup str_eqb d (path_str p)) as [v|e] eqn:Lk.
  2: { cbn in E. injection E as <- <-. discriminate. }
  destruct (log_dump _ w1) as [w2 r2] eqn:E2. apply log_dump_result in E2. destruct r2 as [u2|e].
  2: { injection E as <- <-. exact E2. }
  cbn in E. injection E as <- <-. destruct E2 as (S2 & L2 & F2). rewrite EL1 in F2.
  split; [reflexivity|]. split; [|now apply (Hinv true)].
  split; [|split].
  - intros z Hz. rewrite F2 by assumption. rewrite Ef1. apply G.
  - intros k. rewrite (record_found _ _ k L2), (record_found _ _ k Ld), (record_found _ _ (path_str p) Ld).
    rewrite found_put, found_without. rewrite (lookup_found _ _ _ Lk). reflexivity.
  - rewrite (record_found _ _ _ Ld), (lookup_found _ _ _ Lk). discriminate.
Qed.

(** removing *)
Definition rm_can (w : world) (p : path) : bool := is_dir (w_fs w) p.
Definition rm_eff (w w' : world) (p : path) : Prop :=
  (forall z, z <> L -> fs_get (w_fs w') z = if at_or_below p z then None else fs_get (w_fs w) z)
  /\ (forall k, record_of w' k = if str_eqb (path_str p) k then None else record_of w k).

Lemma rm_step_result p w w' out : RP D p -> Inv w0 w ->
  (r <<- op_rm p ;; match r with Some b => _ <<- log_rm (path_str b) ;; ret true | None => ret false end) w
  = (w', out) ->
  match out with
  | Ok true => rm_can w p = true /\ rm_eff w w' p /\ Inv w0 w'
  | Ok false => rm_can w p = false /\ w' = w
  | Raise e => e <> operation_error
  end.
Proof using H0.
  intros Hp HI E.
  pose proof (t_rm_step D L (depth w0) (fun d Hd => run_directory_len w0 d Hd) (run_directory_proper w0 H0)
    (sound_log_place w0 H0) (sound_log_proper w0 H0) (sound_log_ne w0 H0) (w_root w0) (w_branches w0) (w_base w0)
    (w_attrs w0) (sound_config w0 H0) (sound_output w0 H0) anything p Hp w (St_of w (proj1 HI)) (Inv_J w HI)) as T.
  rewrite E in T. cbn [fst snd] in T. destruct T as (Es & _ & T).
  assert (forall b, out = Ok b -> Inv w0 w') as Hinv.
  { intros b ->. apply J_Inv; [destruct HI; congruence|exact T]. }
  destruct HI as (Es0 & Hs & Hl). clear T.
  unfold mbind at 1 in E. unfold op_rm in E. unfold mbind at 1, get in E. unfold rm_can.
  unfold is_dir, exists_ in *.
  destruct (fs_get (w_fs w) p) as [np|] eqn:Gp; cbn in E; [|injection E as <- <-; auto].
  destruct np as [|c]; cbn in E; [|injection E as <- <-; auto].
  unfold mbind in E.
  destruct (disk (fun f => Ok (rmtree f p)) w) as [w1 r1] eqn:E1. apply disk_result in E1. destruct r1 as [u|e].
  2: { injection E as <- <-. destruct E1 as (_ & [->|R]); discriminate. }
  destruct E1 as (f1 & Rn & Ef1 & S1). injection Rn as <-.
  pose proof (fun z => get_rmtree (w_fs w) p z (rp_ne p Hp)) as G.
  assert (w_log w = L) as EL by (unfold settings in Es0; unfold L; congruence).
  assert (w_log w1 = L) as EL1 by (unfold settings in S1; congruence).
  destruct (log_read_sound w Hs) as (d & Rd & Ld).
  assert (fs_get (w_fs w1) L = fs_get (w_fs w) L) as GL.
  { rewrite Ef1, G. rewrite (proj2 (at_or_below_false p L)); [reflexivity|].
    intros [r R]. now apply (rp_log p r Hp). }
  assert (log_read w1 = (w1, Ok d)) as Rd1.
  { unfold log_read, mbind, get, lift, read. cbn. rewrite EL1, GL.
    unfold log_contents in Ld. rewrite EL in Ld.
    destruct (fs_get (w_fs w) L) as [[|[|[| | |d']]]|]; try discriminate. injection Ld as ->. reflexivity. }
  unfold ret at 1 in E. cbn beta iota in E. unfold log_rm, mbind in E. rewrite Rd1 in E.
  destruct (log_dump _ w1) as [w2 r2] eqn:E2. apply log_dump_result in E2. destruct r2 as [u2|e].
  2: { injection E as <- <-. exact E2. }
  cbn in E. injection E as <- <-. destruct E2 as (S2 & L2 & F2). rewrite EL1 in F2.
  split; [reflexivity|]. split; [|now apply (Hinv true)].
  split.
  - intros z Hz. rewrite F2 by assumption. rewrite Ef1. apply G.
  - intros k. rewrite (record_found _ _ k L2), (record_found _ _ k Ld). apply found_without.
Qed.
(** running *)
Definition run_can (w : world) (p : path) : bool := negb (exists_ (w_fs w) p).
Definition run_eff (o : outside) (w w' : world) (p : path) : Prop :=
  (forall z, z <> L -> ~ within p z -> fs_get (w_fs w') z = fs_get (w_fs w) z)
  /\ (forall k, k <> path_str p -> record_of w' k = record_of w k)
  /\ attempted o w w' p.

Definition frame (p : path) (f0 f : fs) : Prop := forall z, ~ within p z -> fs_get f z = fs_get f0 z.
Definition St1 := S0 L (w_root w0) (w_branches w0) (w_base w0) (w_attrs w0).
Lemma put_frame p f0 f y n : frame p f0 f -> frame p f0 (put f (p ++ [y]) n).
Proof using.
  intros H z Hz. rewrite get_put_other; [now apply H|apply snoc_nonempty|].
  intros <-. apply Hz. now exists [y].
Qed.
Lemma put_dir p f y n : fs_get f p = Some Dir -> fs_get (put f (p ++ [y]) n) p = Some Dir.
Proof using.
  intros H. rewrite get_put_other; [assumption|apply snoc_nonempty|].
  intros E. apply (f_equal (@length _)) in E. rewrite app_length in E. cbn in E. clear -E. lia.
Qed.
Lemma files_frame p files : forall f0 f, frame p f0 f -> fs_get f p = Some Dir ->
  frame p f0 (write_files f p files) /\ fs_get (write_files f p files) p = Some Dir.
Proof using.
  induction files as [|[x t] files IH]; intros f0 f H G; cbn [write_files]; [auto|].
  apply IH; [now apply put_frame|now apply put_dir].
Qed.

Lemma log_dump_steps d w w' out : log_dump d w = (w', out) -> settings w' = settings w.
Proof using.
  unfold log_dump. unfold mbind at 1, get.
  destruct (disk (fun f => write f (w_log w) (Text [])) w) as [w1 r1] eqn:E1.
  unfold mbind. rewrite E1. apply disk_result in E1. destruct r1 as [u|e].
  - destruct E1 as (f1 & W1 & Ef1 & S1). intro E2. apply disk_result in E2. destruct out as [u'|e].
    + destruct E2 as (f2 & W2 & Ef2 & S2). congruence.
    + destruct E2 as (-> & _). assumption.
  - intro E. injection E as <- <-. now destruct E1 as (-> & _).
Qed.

Lemma t_create_frame o config nproc p f0 d : RP D p -> logv L f0 = Some d ->
  triple St1 (fun f => frame p f0 f /\ fs_get f p = Some Dir) (create_run o config nproc p)
    (fun _ f => (forall z, z <> L -> ~ within p z -> fs_get f z = fs_get f0 z) /\ fs_get f p = Some Dir
       /\ (returncode o p = 0%Z -> exists cmd, logv L f = Some (dict_put str_eqb d (path_str p)
               (JObj [(s "command", JStr cmd); (s "time", JStr (now o))])))
       /\ (returncode o p <> 0%Z -> logv L f = Some d))
    (fun e _ => e <> operation_error).
Proof using H0.
  intros Hp Hd. unfold create_run.
  set (K := fun f => frame p f0 f /\ fs_get f p = Some Dir).
  assert (of_settings St1) as OS by (intros w w' E H; unfold St1, S0 in *; congruence).
  assert (~ within p L) as NL by (intros [r R]; now apply (rp_log p r Hp)).
  eapply t_bind with (Q := fun _ => K); [apply t_get; auto|]. intros root.
  eapply t_bind with (Q := fun _ => K); [apply t_get; auto|]. intros f1.
  eapply t_bind with (Q := fun a f => K f); [apply t_get; auto|]. intros a.
  eapply t_bind with (Q := fun _ => K).
  { apply t_if; intros _; [apply t_ret; auto|]. apply t_if; intros _; [apply t_ret; auto|].
    apply t_raise. intros; discriminate. }
  intros inputs. eapply t_bind with (Q := fun _ => K).
  { apply t_disk; [exact OS|intros; discriminate|].
    intros f [Hf Df]. unfold copy_file. destruct (read f inputs) as [c|e] eqn:R; cbn.
    - destruct (write f (p ++ [a_config a]) c) as [f'|e] eqn:W.
      + apply write_ok in W as (-> & _). split; [now apply put_frame|now apply put_dir].
      + now apply write_err in W.
    - now apply read_err in R. }
  intros _.
  assert (forall x b, triple St1 K (locate o x b) (fun _ => K) (fun e _ => e <> operation_error)) as Loc.
  { intros x b. unfold locate. eapply t_bind with (Q := fun _ => K); [apply t_get; auto|]. intros f2.
    apply t_if; intros _; [apply t_ret; auto|]. destruct (which o x); [apply t_ret; auto|].
    apply t_raise; intros; discriminate. }
  eapply t_bind with (Q := fun _ => K); [apply Loc|]. intros mpirun.
  eapply t_bind with (Q := fun _ => K); [apply Loc|]. intros eprem.
  eapply t_bind with (Q := fun _ => K).
  { apply t_disk; [exact OS|intros; discriminate|].
    intros f [Hf Df]. destruct (write f (p ++ [a_output a]) (Text [])) as [f'|e] eqn:W.
    - apply write_ok in W as (-> & _). split; [now apply put_frame|now apply put_dir].
    - now apply write_err in W. }
  intros _. eapply t_bind with (Q := fun _ => K).
  { apply t_disk; [exact OS|intros; discriminate|]. intros f [Hf Df]. now apply files_frame. }
  intros _. apply t_if; intro Z.
  - apply Z.eqb_eq in Z. intros w Hs [Hf Df].
    assert (w_log w = L) as EL by (unfold St1, S0, settings in Hs; congruence).
    assert (log_read w = (w, Ok d)) as Rd.
    { unfold log_read, mbind, get, lift, read. cbn. rewrite EL, (Hf L NL).
      unfold logv in Hd. destruct (fs_get f0 L) as [[|[|[| | |d']]]|]; try discriminate. injection Hd as ->. reflexivity. }
    unfold log_create, mbind. rewrite Rd.
    destruct (log_dump _ w) as [w' out] eqn:E. pose proof (log_dump_steps _ _ _ _ E) as Es.
    apply log_dump_result in E. cbn [fst snd]. split; [assumption|]. split; [now apply (OS w)|].
    destruct out as [u|e]; [|assumption]. destruct E as (_ & Lc & Fr). rewrite EL in Fr. split; [|split; [|split]].
    + intros z Nz Wz. rewrite Fr by assumption. now apply Hf.
    + rewrite Fr; [assumption|]. intros ->. apply NL. exists []. now rewrite app_nil_r.
    + intros _. eexists. unfold log_contents in Lc. replace (w_log w') with L in Lc by (unfold settings in Es; congruence).
      exact Lc.
    + intros N. now rewrite Z in N.
  - apply Z.eqb_neq in Z. apply t_ret. intros f [Hf Df]. split; [|split; [|split]]; auto.
    + intros C. contradiction.
    + intros _. unfold logv in *. now rewrite Hf.
Qed.

Lemma run_step_result o config nproc p w w' out : RP D p ->
  (forall x t, In (x, t) (output_files o p) -> proper_name x) -> Inv w0 w ->
  (r <<- op_mkdir p ;; match r with Some b => _ <<- create_run o config nproc b ;; ret true | None => ret false end) w
  = (w', out) ->
  match out with
  | Ok true => run_can w p = true /\ run_eff o w w' p /\ Inv w0 w'
  | Ok false => run_can w p = false /\ w' = w
  | Raise e => e <> operation_error
  end.
Proof using H0.
  intros Hp Hfiles HI E.
  pose proof (t_run_step D L (depth w0) (fun d Hd => run_directory_len w0 d Hd) (run_directory_proper w0 H0)
    (sound_log_place w0 H0) (sound_log_proper w0 H0) (sound_log_ne w0 H0) (w_root w0) (w_branches w0) (w_base w0)
    (w_attrs w0) (sound_config w0 H0) (sound_output w0 H0) anything o config nproc p Hp Hfiles (or_intror Logic.I)
    w (St_of w (proj1 HI)) (Inv_J w HI)) as T.
  rewrite E in T. cbn [fst snd] in T. destruct T as (Es & _ & T).
  assert (forall b, out = Ok b -> Inv w0 w') as Hinv.
  { intros b ->. apply J_Inv; [destruct HI; congruence|exact T]. }
  pose proof (proj1 (Inv_J w HI)) as IV.
  destruct HI as (Es0 & Hs & Hl). clear T.
  unfold mbind at 1 in E. unfold op_mkdir in E. unfold mbind at 1, get in E. unfold run_can.
  destruct (exists_ (w_fs w) p) eqn:X; [injection E as <- <-; auto|].
  apply exists_false in X.
  unfold mbind in E. 
  destruct (disk (fun f => mkdir f p false) w) as [w1 r1] eqn:E1. apply disk_result in E1. destruct r1 as [u|e].
  2: { injection E as <- <-. destruct E1 as (_ & [->|R]); [discriminate|]. now apply mkdir_from_err in R. }
  destruct E1 as (f1 & Mk & Ef1 & S1). unfold ret at 1 in E. cbn beta iota in E.
  assert (frame p (w_fs w) f1 /\ fs_get f1 p = Some Dir) as HK.
  { split.
    - intros z Hz. apply (mkdir_frame D L (depth w0) (fun d Hd => run_directory_len w0 d Hd) (run_directory_proper w0 H0)
        (sound_log_place w0 H0) (sound_log_proper w0 H0) (sound_log_ne w0 H0) _ _ p IV Hp Mk).
      intros ->. apply Hz. exists []. now rewrite app_nil_r.
    - apply (step_mkdir D L (depth w0) (fun d Hd => run_directory_len w0 d Hd) (run_directory_proper w0 H0)
        (sound_log_place w0 H0) (sound_log_proper w0 H0) (sound_log_ne w0 H0) _ _ p IV Hp Mk). }
  assert (w_log w = L) as EL by (unfold settings in Es0; unfold L; congruence).
  destruct (log_read_sound w Hs) as (d & Rd & Ld).
  assert (logv L (w_fs w) = Some d) as Lv by (unfold log_contents in Ld; rewrite EL in Ld; exact Ld).
  assert (settings w1 = settings w0) as S10 by congruence.
  rewrite <- Ef1 in HK.
  pose proof (t_create_frame o config nproc p (w_fs w) d Hp Lv w1 S10 HK) as T.
  destruct (create_run o config nproc p w1) as [w2 r2] eqn:E2. cbn [fst snd] in T. destruct T as (S2 & _ & T).
  destruct r2 as [u2|e].
  2: { injection E as <- <-. exact T. }
  cbn in E. injection E as <- <-. destruct T as (Fr & Dp & Z1 & Z2).
  assert (w_log w2 = L) as EL2 by (unfold settings in *; congruence).
  assert (forall d', logv L (w_fs w2) = Some d' -> log_contents w2 = Some d') as LC.
  { intros d' H. unfold log_contents. rewrite EL2. exact H. }
  split; [reflexivity|]. split; [|now apply (Hinv true)].
  split; [exact Fr|]. split.
  - intros k Nk. rewrite (record_found _ _ k Ld). destruct (Z.eq_dec (returncode o p) 0) as [Z|Z].
    + destruct (Z1 Z) as [cmd Hc]. rewrite (record_found _ _ k (LC _ Hc)), found_put.
      rewrite (proj2 (str_eqb_neq _ _)); auto.
    + now rewrite (record_found _ _ k (LC _ (Z2 Z))).
  - split; [|split].
    + unfold is_dir. now rewrite Dp.
    + intros Z. destruct (Z1 Z) as [cmd Hc]. split; [unfold is_dir; now rewrite Dp|]. exists cmd.
      now rewrite (record_found _ _ _ (LC _ Hc)), found_put, str_eqb_refl.
    + intros Z. now rewrite (record_found _ _ _ (LC _ (Z2 Z))), (record_found _ _ _ Ld).
Qed.
End Steps.
