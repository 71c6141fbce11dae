(** Property C83: the run log as a mapping. *)
From Verif Require Import PyBase PyLemmas ContainerModel ContainerSpec ContainerProofs ContainerProofs2
  FsModel FsProofs ProjectModel ProjectSpec ProjectProofs ProjectProofs2 ProjectProofs3 RunLogModel RunLogSpec ProjectProperties.

(** ** Lemmas *)
Lemma str_other (x y : str) : x <> y -> str_eqb x y = false.
Proof. apply str_eqb_neq. Qed.
Lemma log_read_ok w d : log_contents w = Some d -> log_read w = (w, Ok d).
Proof.
  unfold log_contents. intros H. unfold log_read, mbind, get, lift, read. cbn. destruct (fs_get (w_fs w) (w_log w)) as [[|[|[| | |o]]]|]; try discriminate H. injection H as <-. reflexivity.
Qed.
Lemma readable_some w : readable w -> exists d, log_contents w = Some d.
Proof. unfold readable. destruct (log_contents w) as [d|]; [exists d; reflexivity|congruence]. Qed.
Lemma log_ne w : readable w -> w_log w <> [].
Proof. intros R H. apply R. unfold log_contents. rewrite H. reflexivity. Qed.
Lemma put_dir' f p n q : fs_get f p <> Some Dir -> p <> [] -> is_dir f q = true -> is_dir (put f p (File n)) q = true.
Proof. intros N Ne H. apply is_dir_get. apply is_dir_get in H. rewrite get_put_other; [exact H|exact Ne|]. intros ->. contradiction. Qed.
Lemma dump_ok w d : usable w -> exists w', log_dump d w = (w', Ok tt) /\ log_contents w' = Some d /\ only_the_log w w' /\ w_steps w' = w_steps w - 2 /\
  is_dir (w_fs w') (parent (w_log w')) = true.
Proof.
  intros (R & P & St). pose proof (log_ne w R) as Ne. assert (Nd : fs_get (w_fs w) (w_log w) <> Some Dir) by (intros H; apply R; unfold log_contents; rewrite H; reflexivity).
  destruct w as [f root br ba lg at_ n]. cbn [w_fs w_log w_steps] in *. destruct n as [|[|n]]; [inversion St|apply le_S_n in St; inversion St|].
  unfold log_dump, mbind, get, disk, lift, set_fs. cbn [w_log w_fs w_steps].
  assert (W1 : write f lg (Text []) = Ok (put f lg (File (Text [])))).
  { unfold write. rewrite P. destruct (fs_get f lg) as [[|]|]; [congruence|reflexivity|reflexivity]. }
  unfold mbind, get, lift. cbn [w_fs w_log w_steps]. rewrite W1. cbn [w_fs w_log w_steps w_root w_branches w_base w_attrs].
  assert (W2 : write (put f lg (File (Text []))) lg (Json (JObj d)) = Ok (put (put f lg (File (Text []))) lg (File (Json (JObj d))))).
  { unfold write. rewrite get_put_same by exact Ne. rewrite put_dir' by assumption. reflexivity. }
  rewrite W2. eexists. split; [reflexivity|]. split; [unfold log_contents; cbn [w_fs w_log]; rewrite get_put_same by exact Ne; reflexivity|]. split; [|split].
  - unfold only_the_log. cbn [w_fs w_log w_root w_branches w_base w_attrs]. repeat (split; [reflexivity|]). intros z Hz. rewrite !get_put_other by auto. reflexivity.
  - cbn [w_steps]. rewrite Nat.sub_succ, Nat.sub_succ, Nat.sub_0_r. reflexivity.
  - cbn [w_fs w_log]. apply put_dir'; [rewrite get_put_same by exact Ne; discriminate|exact Ne|]. apply put_dir'; assumption.
Qed.
Lemma spoil_ok w : readable w -> is_dir (w_fs w) (parent (w_log w)) = true -> 1 <= w_steps w ->
  exists w', log_spoil w = (w', Raise TypeError) /\ log_contents w' = None.
Proof.
  intros R P St. pose proof (log_ne w R) as Ne. assert (Nd : fs_get (w_fs w) (w_log w) <> Some Dir) by (intros H; apply R; unfold log_contents; rewrite H; reflexivity).
  destruct w as [f root br ba lg at_ n]. cbn [w_fs w_log w_steps] in *. destruct n as [|n]; [inversion St|].
  unfold log_spoil, mbind, get, disk, lift, set_fs, raise. cbn [w_log w_fs w_steps].
  assert (W1 : write f lg (Text []) = Ok (put f lg (File (Text [])))).
  { unfold write. rewrite P. destruct (fs_get f lg) as [[|]|]; [congruence|reflexivity|reflexivity]. }
  unfold mbind, get, lift. cbn [w_fs w_log w_steps]. rewrite W1. eexists. split; [reflexivity|]. unfold log_contents. cbn [w_fs w_log]. rewrite get_put_same by exact Ne. reflexivity.
Qed.
Lemma writable_ok new j : written_as new j -> all_writable new = Some j.
Proof. unfold written_as. intros ->. induction j as [|[k v] j IH]; [reflexivity|]. cbn [map all_writable fst snd]. rewrite IH. reflexivity. Qed.
Lemma writable_none new : all_writable new = None <-> has_unwritable new.
Proof.
  unfold has_unwritable. induction new as [|[k [v|]] new IH]; cbn [all_writable].
  - split; [discriminate|intros (k & [])].
  - destruct (all_writable new) as [j|]; cbn [option_map].
    + split; [discriminate|]. intros (k' & [H|H]); [discriminate|]. assert (X : Some j = None) by (apply IH; exists k'; exact H). discriminate.
    + split; [|reflexivity]. intros _. destruct (proj1 IH eq_refl) as (k' & H). exists k'. right. exact H.
  - split; [|reflexivity]. intros _. exists k. left. reflexivity.
Qed.
Lemma record_in w d k : log_contents w = Some d -> record_of w k = found d k.
Proof. apply record_found. Qed.
Lemma lookup_found_iff d k : match found d k with Some v => lookup str_eqb d k = Ok v | None => exists e, lookup str_eqb d k = Raise e end.
Proof. rewrite lookup_find. unfold found. destruct (find _ d) as [[a v]|]; [reflexivity|eexists; reflexivity]. Qed.
Lemma put_ok w d k v : usable w -> log_contents w = Some d -> exists w', log_dump (dict_put str_eqb d k v) w = (w', Ok tt) /\ readable w' /\ only_the_log w w' /\
  record_of w' k = Some v /\ same_records_but w w' [k].
Proof.
  intros Us C. destruct (dump_ok w (dict_put str_eqb d k v) Us) as (w' & E & C' & O & _). exists w'. split; [exact E|]. split; [unfold readable; rewrite C'; discriminate|]. split; [exact O|].
  split; [rewrite (record_in _ _ _ C'), found_put, str_eqb_refl; reflexivity|]. intros k' N. rewrite (record_in _ _ _ C'), (record_in _ _ _ C), found_put.
  rewrite str_other; [reflexivity|]. intros ->. apply N. left. reflexivity.
Qed.

(** ** Opening a log: a new file holds the common attributes, an existing one is
    left alone, and its common attributes cannot be changed. *)
Theorem C83_open f p common : 
  (exists_ f p = false -> is_dir f (parent p) = true -> exists f', log_open f p common = Ok f' /\ fs_get f' p = Some (File (Json (JObj common))) /\
     forall z, z <> p -> fs_get f' z = fs_get f z) /\
  (exists_ f p = false -> is_dir f (parent p) = false -> log_open f p common = Raise (OtherError "FileNotFoundError")) /\
  (exists_ f p = true -> common = [] -> log_open f p common = Ok f) /\
  (exists_ f p = true -> common <> [] -> log_open f p common = Raise TypeError).
Proof.
  unfold log_open. split; [|split; [|split]].
  - intros N P. rewrite N. unfold write. rewrite P. apply exists_false in N. rewrite N. assert (Ne : p <> []) by (intros ->; discriminate N).
    eexists. split; [reflexivity|]. split; [apply get_put_same, Ne|]. intros z Hz. apply get_put_other; auto.
  - intros N P. rewrite N. unfold write. rewrite P. apply exists_false in N. rewrite N. reflexivity.
  - intros -> ->. reflexivity.
  - intros -> Hc. destruct common; [congruence|reflexivity].
Qed.
(** ** A mapping: keys, values and length *)
Theorem C83_mapping w d : log_contents w = Some d ->
  log_iter w = (w, Ok (map fst d)) /\ log_len w = (w, Ok (length (map fst d))) /\
  forall k, (In k (map fst d) <-> record_of w k <> None) /\
    log_contains k w = (w, Ok (match record_of w k with Some _ => true | None => false end)) /\
    log_get k w = (w, match record_of w k with Some v => Ok v | None => Raise (OtherError "LogKeyError") end).
Proof.
  intros C. pose proof (log_read_ok w d C) as R. unfold log_iter, log_len, log_contains, log_get, mbind. rewrite R. cbn [ret lift]. rewrite map_length.
  split; [reflexivity|]. split; [reflexivity|]. intros k. assert (I : In k (map fst d) <-> record_of w k <> None).
  { rewrite (record_in _ _ _ C). clear. induction d as [|[a v] d IH]; [cbn; split; [intros []|congruence]|]. rewrite found_cons. cbn [map fst In]. destruct (str_eqb a k) eqn:E.
    - apply str_eqb_eq in E. split; [discriminate|]. intros _. left. exact E.
    - split; [intros [X|X]; [subst a; rewrite str_eqb_refl in E; discriminate|apply IH, X]|intros X; right; apply IH, X]. }
  split; [exact I|]. split.
  - unfold ret, lift. destruct (mem str_eqb k (map fst d)) eqn:Mk.
    + apply (mem_spec str_eqb str_decides) in Mk. apply I in Mk. destruct (record_of w k); [reflexivity|congruence].
    + destruct (record_of w k) eqn:Rk; [|reflexivity]. assert (X : In k (map fst d)) by (apply I; discriminate). apply (mem_spec str_eqb str_decides) in X. congruence.
  - unfold lift. rewrite (record_in _ _ _ C). pose proof (lookup_found_iff d k) as L. destruct (found d k); [rewrite L; reflexivity|]. destruct L as (e & ->). reflexivity.
Qed.
(** ** A new record: exactly what was given, from one mapping or from keyword
    arguments, in place of a previous record of that name; no other changes. *)
Theorem C83_create w key new j : usable w -> written_as new j ->
  forall call, call = log_create_any key [new] [] \/ call = log_create_any key [] new ->
  exists w', call w = (w', Ok tt) /\ readable w' /\ only_the_log w w' /\ record_of w' key = Some (JObj j) /\ same_records_but w w' [key].
Proof.
  intros Us Wn call H. destruct (readable_some w (proj1 Us)) as (d & C). pose proof (log_read_ok w d C) as R.
  destruct (put_ok w d key (JObj j) Us C) as (w' & E & Q). exists w'. split; [|exact Q].
  destruct H as [-> | ->]; unfold log_create_any, mbind; rewrite R.
  - assert (Hn : match new with [] => [] | _ => new end = new) by (destruct new; reflexivity). rewrite Hn, (writable_ok _ _ Wn). exact E.
  - rewrite (writable_ok _ _ Wn). exact E.
Qed.
Theorem C83_create_refused w key a b m n : readable w ->
  log_create_any key (a :: m) (b :: n) w = (w, Raise TypeError) /\ log_create_any key (a :: [] :: m) [] w = (w, Raise TypeError).
Proof. intros R. destruct (readable_some w R) as (d & C). unfold log_create_any, mbind. rewrite (log_read_ok w d C). split; [destruct m|]; reflexivity. Qed.
(** ** Renaming a record, removing one, adding an attribute *)
Theorem C83_move w old new v : usable w -> record_of w old = Some v ->
  exists w', log_mv old new w = (w', Ok tt) /\ readable w' /\ only_the_log w w' /\ record_of w' new = Some v /\ (old <> new -> record_of w' old = None) /\ same_records_but w w' [old; new].
Proof.
  intros Us Rv. destruct (readable_some w (proj1 Us)) as (d & C). rewrite (record_in _ _ _ C) in Rv. unfold log_mv, mbind. rewrite (log_read_ok w d C).
  pose proof (lookup_found_iff d old) as L. rewrite Rv in L. rewrite L.
  destruct (dump_ok w (dict_put str_eqb (without_key d old) new v) Us) as (w' & E & C' & O & _). exists w'. split; [exact E|]. split; [unfold readable; rewrite C'; discriminate|]. split; [exact O|].
  split; [rewrite (record_in _ _ _ C'), found_put, str_eqb_refl; reflexivity|]. split.
  - intros N. rewrite (record_in _ _ _ C'), found_put, found_without, str_eqb_refl, str_other by congruence. reflexivity.
  - intros k N. rewrite (record_in _ _ _ C'), (record_in _ _ _ C), found_put, found_without. rewrite !str_other; [reflexivity| |]; intros ->; apply N; [left|right; left]; reflexivity.
Qed.
Theorem C83_move_unknown w old new : readable w -> record_of w old = None -> log_mv old new w = (w, Raise (OtherError "LogKeyError")).
Proof.
  intros Us Rv. destruct (readable_some w Us) as (d & C). rewrite (record_in _ _ _ C) in Rv. unfold log_mv, mbind. rewrite (log_read_ok w d C).
  pose proof (lookup_found_iff d old) as L. rewrite Rv in L. destruct L as (e & ->). reflexivity.
Qed.
(** A record of the new name is lost without a warning. *)
Theorem C83_move_overwrites_refuted w old new v v' : usable w -> old <> new -> record_of w old = Some v -> record_of w new = Some v' ->
  exists w', log_mv old new w = (w', Ok tt) /\ forall k, record_of w' k = Some v' -> v' = v \/ (k <> new /\ record_of w k = Some v').
Proof.
  intros Us N Ro Rn. destruct (C83_move w old new v Us Ro) as (w' & E & _ & _ & R1 & R2 & R3). exists w'. split; [exact E|]. intros k Hk.
  destruct (str_eq_dec k new) as [->|K1]; [left; congruence|]. right. split; [exact K1|]. destruct (str_eq_dec k old) as [->|K2]; [rewrite (R2 N) in Hk; discriminate|].
  rewrite <- (R3 k); [exact Hk|]. intros [X|[X|[]]]; congruence.
Qed.
Theorem C83_remove w target : usable w ->
  exists w', log_rm target w = (w', Ok tt) /\ readable w' /\ only_the_log w w' /\ record_of w' target = None /\ same_records_but w w' [target].
Proof.
  intros Us. destruct (readable_some w (proj1 Us)) as (d & C). unfold log_rm, mbind. rewrite (log_read_ok w d C).
  destruct (dump_ok w (without_key d target) Us) as (w' & E & C' & O & _). exists w'. split; [exact E|]. split; [unfold readable; rewrite C'; discriminate|]. split; [exact O|].
  split; [rewrite (record_in _ _ _ C'), found_without, str_eqb_refl; reflexivity|]. intros k N. rewrite (record_in _ _ _ C'), (record_in _ _ _ C), found_without.
  rewrite str_other; [reflexivity|]. intros ->. apply N. left. reflexivity.
Qed.
Theorem C83_append w target key r v : usable w -> record_of w target = Some (JObj r) ->
  exists w' r', log_append_any target key (Writable v) w = (w', Ok tt) /\ readable w' /\ only_the_log w w' /\ record_of w' target = Some (JObj r') /\ same_records_but w w' [target] /\
    attribute r' key = Some v /\ forall k, k <> key -> attribute r' k = attribute r k.
Proof.
  intros Us Rv. destruct (readable_some w (proj1 Us)) as (d & C). pose proof Rv as Rv0. rewrite (record_in _ _ _ C) in Rv. unfold log_append_any, mbind. rewrite (log_read_ok w d C).
  pose proof (lookup_found_iff d target) as L. rewrite Rv in L. rewrite L.
  destruct (put_ok w d target (JObj (dict_put str_eqb r key v)) Us C) as (w' & E & Rd & O & R1 & R2). exists w', (dict_put str_eqb r key v).
  split; [exact E|]. split; [exact Rd|]. split; [exact O|]. split; [exact R1|]. split; [exact R2|]. change attribute with found. split; [rewrite found_put, str_eqb_refl; reflexivity|].
  intros k N. rewrite found_put, str_other by congruence. reflexivity.
Qed.
Theorem C83_append_unknown w target key v : readable w ->
  (record_of w target = None -> log_append_any target key v w = (w, Raise (OtherError "LogKeyError"))) /\
  (forall j, record_of w target = Some j -> (forall r, j <> JObj r) -> log_append_any target key v w = (w, Raise TypeError)).
Proof.
  intros Us. destruct (readable_some w Us) as (d & C). rewrite (record_in _ _ _ C). unfold log_append_any, mbind. rewrite (log_read_ok w d C).
  pose proof (lookup_found_iff d target) as L. split.
  - intros Rv. rewrite Rv in L. destruct L as (e & ->). reflexivity.
  - intros j Rv N. rewrite Rv in L. rewrite L. destruct j; try reflexivity. destruct (N l eq_refl).
Qed.
(** ** An error leaves the disk as it was, if all values can be written *)
Lemma dump_error d w w' e : log_dump d w = (w', Raise e) -> e <> killed -> w' = w.
Proof.
  unfold log_dump. unfold mbind at 1, get. destruct (disk (fun f => write f (w_log w) (Text [])) w) as [w1 r1] eqn:E1. unfold mbind. rewrite E1. apply disk_result in E1. destruct r1 as [u|e1].
  - destruct E1 as (f1 & W1 & Ef1 & S1). intros E2 Nk. apply disk_result in E2. destruct E2 as (-> & [X|W]); [contradiction|]. exfalso. rewrite Ef1 in W.
    apply write_ok in W1 as (-> & D1 & P1 & N1). unfold write in W. rewrite get_put_same in W by exact N1.
    assert (Nd : fs_get (w_fs w) (w_log w) <> Some Dir) by assumption.
    rewrite put_dir' in W by assumption. discriminate.
  - intro E. injection E as <- <-. intros _. apply E1.
Qed.
Theorem C83_refused r w w' e : all_given_writable r -> ask r w = (w', Raise e) -> e <> killed -> w' = w.
Proof.
  intros G E N. assert (Rd : forall A (k : log_dict -> M A) w2 e2, mbind log_read k w = (w2, Raise e2) -> w2 = w \/ exists d, log_read w = (w, Ok d) /\ k d w = (w2, Raise e2)).
  { intros A k w2 e2. unfold mbind. destruct (log_read w) as [w1 [d|e1]] eqn:R; assert (w1 = w) by
      (revert R; unfold log_read, mbind, get, lift; destruct (read (w_fs w) (w_log w)) as [[|[| |[|]|]]|]; unfold ret, raise; congruence); subst w1.
    - intros X. right. exists d. split; [reflexivity|exact X].
    - intros X. left. congruence. }
  destruct r as [k m i|t k v|a b|t|h y k p t]; cbn [ask all_given_writable] in *.
  - unfold log_create_any in E. apply Rd in E as [E|(d & _ & E)]; [exact E|]. destruct G as (Gi & Gm).
    assert (X : forall new, ~ has_unwritable new -> match all_writable new with Some j => log_dump (dict_put str_eqb d k (JObj j)) | None => log_spoil end w = (w', Raise e) -> w' = w).
    { intros new Hn X. destruct (all_writable new) eqn:Aw; [exact (dump_error _ _ _ _ X N)|]. apply writable_none in Aw. contradiction. }
    destruct m as [|x [|y m]], i as [|z i].
    + exact (X [] Gi E).
    + exact (X _ Gi E).
    + destruct x as [|x1 x2]; [exact (X [] Gi E)|]. inversion Gm; subst. exact (X _ H1 E).
    + unfold raise in E. congruence.
    + unfold raise in E. congruence.
    + unfold raise in E. congruence.
  - unfold log_append_any in E. apply Rd in E as [E|(d & _ & E)]; [exact E|]. destruct (lookup str_eqb d t) as [[| | |r]|]; unfold raise in E; try congruence.
    destruct v; [|congruence]. exact (dump_error _ _ _ _ E N).
  - unfold log_mv in E. apply Rd in E as [E|(d & _ & E)]; [exact E|]. destruct (lookup str_eqb d a); [exact (dump_error _ _ _ _ E N)|unfold raise in E; congruence].
  - unfold log_rm in E. apply Rd in E as [E|(d & _ & E)]; [exact E|]. exact (dump_error _ _ _ _ E N).
  - unfold log_load_file in E. apply Rd in E as [E|(d & _ & E)]; [exact E|]. apply Rd in E as [E|(d' & _ & E)]; [exact E|]. unfold mbind, lift, get in E.
    destruct (source_loader _ _) as [l|]; [|congruence]. destruct (read _ _) as [c|]; [|congruence]. destruct (loaded y l c) as [j|]; [|congruence]. destruct (update_with d' j) as [u|]; [|congruence].
    exact (dump_error _ _ _ _ E N).
Qed.
(** ** A value that JSON cannot represent destroys the whole log *)
Theorem C83_unwritable_refuted w target key r new : usable w -> record_of w target = Some (JObj r) -> has_unwritable new ->
  (exists w', log_append_any target key Unwritable w = (w', Raise TypeError) /\ ~ readable w' /\ forall k, record_of w' k = None) /\
  (exists w', log_create_any target [new] [] w = (w', Raise TypeError) /\ ~ readable w' /\ forall k, record_of w' k = None).
Proof.
  intros Us Rv Hn. destruct (readable_some w (proj1 Us)) as (d & C). rewrite (record_in _ _ _ C) in Rv.
  destruct (spoil_ok w (proj1 Us) (proj1 (proj2 Us)) (Nat.le_trans _ _ _ (le_S _ _ (le_n 1)) (proj2 (proj2 Us)))) as (w' & E & C').
  assert (B : ~ readable w' /\ forall k, record_of w' k = None) by (split; [intros X; exact (X C')|intros k; unfold record_of; rewrite C'; reflexivity]).
  split; exists w'; (split; [|exact B]).
  - unfold log_append_any, mbind. rewrite (log_read_ok w d C). pose proof (lookup_found_iff d target) as L. rewrite Rv in L. rewrite L. exact E.
  - unfold log_create_any, mbind. rewrite (log_read_ok w d C). pose proof (proj2 (writable_none new) Hn) as X. destruct new as [|n0 new]; [destruct Hn as (? & [])|]. rewrite X. exact E.
Qed.
(** ** A damaged or missing log: every request fails and changes nothing *)
Theorem C83_damaged r w e : log_contents w = None -> fs_get (w_fs w) (w_log w) <> Some (File (Json (JList []))) ->
  e = (match fs_get (w_fs w) (w_log w) with
       | None => OtherError "FileNotFoundError"
       | Some Dir => OtherError "IsADirectoryError"
       | Some (File (Text _)) => OtherError "JSONDecodeError"
       | Some (File (Json _)) => TypeError
       end) ->
  ask r w = (w, Raise e) /\ log_iter w = (w, Raise e) /\ log_len w = (w, Raise e) /\ forall k, log_get k w = (w, Raise e).
Proof.
  intros C Nl ->. assert (R : log_read w = (w, Raise (match fs_get (w_fs w) (w_log w) with None => OtherError "FileNotFoundError" | Some Dir => OtherError "IsADirectoryError"
    | Some (File (Text _)) => OtherError "JSONDecodeError" | Some (File (Json _)) => TypeError end))).
  { unfold log_contents in C. unfold log_read, mbind, get, lift, read, raise. destruct (fs_get (w_fs w) (w_log w)) as [[|[|[| |[|]|]]]|]; try reflexivity; congruence. }
  split; [|split; [|split]].
  - destruct r; cbn [ask]; unfold log_create_any, log_append_any, log_mv, log_rm, log_load_file, mbind at 1; rewrite R; reflexivity.
  - unfold log_iter, mbind. rewrite R. reflexivity.
  - unfold log_len, mbind. rewrite R. reflexivity.
  - intros k. unfold log_get, mbind. rewrite R. reflexivity.
Qed.
(** ** Loading a record from a file: which files, and what becomes the record *)
Definition type_text (want t : str) : Prop := exists dots t', t = dots ++ t' /\ Forall (eq "."%char) dots /\ map lower_letter t' = want.
Lemma no_dots_spec want t : hd "x"%char want <> "."%char -> no_dots (map lower_letter t) = want <-> type_text want t.
Proof.
  intros Hw. assert (Ld : forall c, lower_letter c = "."%char <-> c = "."%char).
  { intros c. split; [|intros ->; reflexivity]. destruct c as [[] [] [] [] [] [] [] []]; vm_compute; intros H; congruence. }
  induction t as [|c t IH]; cbn [map no_dots].
  - split; [intros <-; exists [], []; repeat constructor|]. intros (dots & t' & E & _ & <-). symmetry in E. apply app_eq_nil in E as [_ ->]. reflexivity.
  - destruct (Ascii.eqb_spec (lower_letter c) "."%char) as [D|D].
    + apply (proj1 (Ld c)) in D. subst c. rewrite IH. split.
      * intros (dots & t' & -> & F & Et). exists ("."%char :: dots), t'. split; [reflexivity|]. split; [constructor; [reflexivity|exact F]|exact Et].
      * intros (dots & t' & E & F & Et). destruct dots as [|x dots]; cbn [app] in E.
        -- subst t'. cbn [map] in Et. rewrite (proj2 (Ld "."%char) eq_refl) in Et. rewrite <- Et in Hw. cbn [hd] in Hw. congruence.
        -- injection E as _ ->. inversion F as [|? ? _ F']; subst. exists dots, t'. split; [reflexivity|]. split; [exact F'|reflexivity].
    + split.
      * intros <-. exists [], (c :: t). split; [reflexivity|]. split; [constructor|reflexivity].
      * intros (dots & t' & E & F & Et). destruct dots as [|x dots]; cbn [app] in E; [subst t'; exact Et|]. injection E as <- ->. inversion F; subst. destruct D. reflexivity.
Qed.
Theorem C83_load_types h t :
  (type_text (s "json") t -> source_loader h t = Ok LJson) /\
  (type_text (s "yaml") t -> source_loader h t = if h then Ok LYaml else Raise (OtherError "ReadTypeError")) /\
  (~ type_text (s "json") t -> ~ type_text (s "yaml") t -> source_loader h t = Raise ValueError).
Proof.
  assert (J : no_dots (map lower_letter t) = s "json" <-> type_text (s "json") t) by (apply no_dots_spec; discriminate).
  assert (Y : no_dots (map lower_letter t) = s "yaml" <-> type_text (s "yaml") t) by (apply no_dots_spec; discriminate).
  unfold source_loader. split; [|split].
  - intros H. apply J in H. rewrite H. reflexivity.
  - intros H. apply Y in H. rewrite H, str_eqb_refl. reflexivity.
  - intros NJ NY. rewrite !str_other; [reflexivity| |]; intros H; [apply NJ, J, H|apply NY, Y, H].
Qed.
Lemma found_update d new : NoDup (map fst new) -> forall k, found (dict_update d new) k = match attribute new k with Some v => Some v | None => found d k end.
Proof.
  unfold dict_update. revert d. induction new as [|[a v] new IH]; intros d Nd k; [reflexivity|]. cbn [fold_left fst snd]. inversion Nd as [|? ? Na Nd']; subst. rewrite (IH _ Nd').
  change attribute with found. rewrite found_cons, found_put. destruct (str_eqb a k) eqn:E; [|reflexivity]. apply str_eqb_eq in E. subst a.
  destruct (found new k) eqn:F; [|reflexivity]. exfalso. apply Na. apply lookup_found in F || idtac. clear - F. unfold found in F. destruct (find _ new) as [[b u]|] eqn:E; [|discriminate].
  apply find_some in E as (I & Eb). cbn [fst] in Eb. apply str_eqb_eq in Eb. subst b. apply in_map_iff. exists (k, u). split; [reflexivity|exact I].
Qed.
Theorem C83_load w h y key source filetype new : usable w -> fs_get (w_fs w) source = Some (File (Json (JObj new))) -> NoDup (map fst new) ->
  type_text (s "json") (match filetype with Some (c :: t) => c :: t | _ => suffix (name source) end) ->
  exists w' r, log_load_file h y key source filetype w = (w', Ok tt) /\ readable w' /\ only_the_log w w' /\ record_of w' key = Some (JObj r) /\ same_records_but w w' [key] /\
    forall k, attribute r k = match attribute new k with Some v => Some v | None => record_of w k end.
Proof.
  intros Us Sf Nd Ty. destruct (readable_some w (proj1 Us)) as (d & C). unfold log_load_file, mbind. rewrite (log_read_ok w d C). rewrite (log_read_ok w d C).
  assert (El : source_loader h (or_str filetype (suffix (name source))) = Ok LJson) by (apply C83_load_types; destruct filetype as [[|c t]|]; exact Ty).
  unfold lift, get. rewrite El. unfold read. rewrite Sf. cbn [loaded update_with].
  destruct (put_ok w d key (JObj (dict_update d new)) Us C) as (w' & E & Rd & O & R1 & R2). exists w', (dict_update d new).
  split; [exact E|]. split; [exact Rd|]. split; [exact O|]. split; [exact R1|]. split; [exact R2|]. intros k. change (attribute (dict_update d new)) with (found (dict_update d new)).
  rewrite found_update by exact Nd. rewrite (record_in _ _ _ C). reflexivity.
Qed.
(** The new record is not the contents of the file: it repeats every other record
    of the log. *)
(** A source of the other type: what the YAML reader makes of its content is
    recorded, what the reader raises is raised and nothing changes; without the
    reader a source of this type is refused and nothing changes. *)
Theorem C83_load_yaml w y key source filetype c : usable w -> fs_get (w_fs w) source = Some (File c) ->
  type_text (s "yaml") (match filetype with Some (c :: t) => c :: t | _ => suffix (name source) end) ->
  (forall new, y c = Ok (JObj new) -> NoDup (map fst new) ->
    exists w' r, log_load_file true y key source filetype w = (w', Ok tt) /\ readable w' /\ only_the_log w w' /\ record_of w' key = Some (JObj r) /\ same_records_but w w' [key] /\
      forall k, attribute r k = match attribute new k with Some v => Some v | None => record_of w k end) /\
  (forall e, y c = Raise e -> log_load_file true y key source filetype w = (w, Raise e)) /\
  log_load_file false y key source filetype w = (w, Raise (OtherError "ReadTypeError")).
Proof.
  intros Us Sf Ty. destruct (readable_some w (proj1 Us)) as (d & C).
  assert (El : forall h, source_loader h (or_str filetype (suffix (name source))) = if h then Ok LYaml else Raise (OtherError "ReadTypeError")) by (intros h; apply C83_load_types; destruct filetype as [[|x t]|]; exact Ty).
  unfold log_load_file, mbind. rewrite (log_read_ok w d C), (log_read_ok w d C). unfold lift, get. rewrite (El true), (El false). unfold read. rewrite Sf. cbn [loaded].
  split; [|split; [|reflexivity]].
  - intros new -> Nd. cbn [update_with]. destruct (put_ok w d key (JObj (dict_update d new)) Us C) as (w' & E & Rd & O & R1 & R2). exists w', (dict_update d new).
    split; [exact E|]. split; [exact Rd|]. split; [exact O|]. split; [exact R1|]. split; [exact R2|]. intros k. change (attribute (dict_update d new)) with (found (dict_update d new)).
    rewrite found_update by exact Nd. rewrite (record_in _ _ _ C). reflexivity.
  - intros e ->. reflexivity.
Qed.
Theorem C83_load_refuted w h y key source new k v : usable w -> fs_get (w_fs w) source = Some (File (Json (JObj new))) -> NoDup (map fst new) -> type_text (s "json") (suffix (name source)) ->
  record_of w k = Some v -> attribute new k = None ->
  exists w' r, log_load_file h y key source None w = (w', Ok tt) /\ record_of w' key = Some (JObj r) /\ attribute r k = Some v /\ r <> new.
Proof.
  intros Us Sf Nd Ty Rk Nk. destruct (C83_load w h y key source None new Us Sf Nd Ty) as (w' & r & E & _ & _ & R1 & _ & A). exists w', r. split; [exact E|]. split; [exact R1|].
  assert (Ak : attribute r k = Some v) by (rewrite A, Nk; exact Rk). split; [exact Ak|]. intros ->. congruence.
Qed.

(** ** A concrete log *)
Definition log0 : world := ex_world [] 100.
Lemma log0_usable : usable log0.
Proof. split; [vm_compute; discriminate|]. split; [vm_compute; reflexivity|]. vm_compute. repeat constructor. Qed.
Example C83_history_case :
  let ops := [LCreate (s "a") [[(s "n", Writable (JStr (s "1")))]] []; LAppend (s "a") (s "m") (Writable JNull); LMove (s "a") (s "b"); LAppend (s "a") (s "m") (Writable JNull);
              LCreate (s "c") [] [(s "x", Writable JNull)]; LRemove (s "c")] in
  let run := fold_left (fun acc r => let (w, outs) := (acc : world * list (result unit)) in let (w', o) := ask r w in (w', outs ++ [o])) ops (log0, []) in
  snd run = [Ok tt; Ok tt; Ok tt; Raise (OtherError "LogKeyError"); Ok tt; Ok tt] /\
  record_of (fst run) (s "b") = Some (JObj [(s "n", JStr (s "1")); (s "m", JNull)]) /\ record_of (fst run) (s "a") = None /\ record_of (fst run) (s "c") = None /\
  record_of (fst run) (s "config") = Some (JStr (s "eprem.cfg")).
Proof. vm_compute. repeat split. Qed.
Example C83_spoiled_case : exists w1 w2 w3, ask (LCreate (s "a") [[(s "n", Writable (JStr (s "1")))]] []) log0 = (w1, Ok tt) /\ usable w1 /\
  ask (LAppend (s "a") (s "when") Unwritable) w1 = (w2, Raise TypeError) /\ ask (LRemove (s "a")) w2 = (w3, Raise (OtherError "JSONDecodeError")).
Proof.
  do 3 eexists. split; [vm_compute; reflexivity|]. split; [split; [vm_compute; discriminate|]; split; [vm_compute; reflexivity|vm_compute; repeat constructor]|].
  split; vm_compute; reflexivity.
Qed.
Example C83_types_case : type_text (s "json") (s ".json") /\ type_text (s "json") (s "JSON") /\ type_text (s "yaml") (s "..Yaml") /\ ~ type_text (s "json") (s "txt") /\
  suffix (s "run.one.json") = s ".json" /\ suffix (s ".json") = [].
Proof.
  split; [exists (s "."), (s "json"); repeat constructor|]. split; [exists [], (s "JSON"); repeat constructor|]. split; [exists (s ".."), (s "Yaml"); repeat constructor|].
  split; [|split; reflexivity]. intros (dots & t' & E & F & Et). destruct dots as [|c dots]; [cbn [app] in E; subst t'; discriminate Et|]. inversion F; subst. discriminate E.
Qed.
(** a YAML file beside the log: read, unreadable, and without the reader *)
Example C83_yaml_case :
  let w := fst (set_fs (w_fs log0 ++ [([s "tmp"; s "run.YAML"], File (Text (s "n: 1")))]) log0) in
  let y := fun c => match c with Text [] => Raise ValueError | _ => Ok (JObj [(s "n", JStr (s "1"))]) end in
  let r := log_load_file true y (s "a") [s "tmp"; s "run.YAML"] None w in
  usable w /\ fs_get (w_fs w) [s "tmp"; s "run.YAML"] = Some (File (Text (s "n: 1"))) /\ type_text (s "yaml") (suffix (s "run.YAML")) /\
  snd r = Ok tt /\ match record_of (fst r) (s "a") with Some (JObj m) => attribute m (s "n") = Some (JStr (s "1")) | _ => False end /\
  snd (log_load_file false y (s "a") [s "tmp"; s "run.YAML"] None w) = Raise (OtherError "ReadTypeError").
Proof.
  cbv zeta. split; [split; [vm_compute; discriminate|]; split; [vm_compute; reflexivity|vm_compute; repeat constructor]|].
  split; [vm_compute; reflexivity|]. split; [exists (s "."), (s "YAML"); repeat constructor|]. split; [vm_compute; reflexivity|]. split; vm_compute; reflexivity.
Qed.
Print Assumptions C83_open.
Print Assumptions C83_mapping.
Print Assumptions C83_create.
Print Assumptions C83_create_refused.
Print Assumptions C83_move.
Print Assumptions C83_move_unknown.
Print Assumptions C83_move_overwrites_refuted.
Print Assumptions C83_remove.
Print Assumptions C83_append.
Print Assumptions C83_append_unknown.
Print Assumptions C83_refused.
Print Assumptions C83_unwritable_refuted.
Print Assumptions C83_damaged.
Print Assumptions C83_load_types.
Print Assumptions C83_load.
Print Assumptions C83_load_yaml.
Print Assumptions C83_load_refuted.
