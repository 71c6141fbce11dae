(** Property C90: the search for files. *)
From Verif Require Import PyBase PyLemmas FsModel ConfigModel ConfigSpec ConfigProperties SearchModel SearchSpec.

Lemma join_target d file : join d file = target d file.
Proof. unfold join, target, absolute. destruct file as [|c x]; [reflexivity|]. destruct c as [[] [] [] [] [] [] [] []]; reflexivity. Qed.
Lemma there f p : exists_ f p = true <-> is_there f p.
Proof. unfold exists_, is_there. destruct (fs_get f p); split; intros H; congruence. Qed.
Lemma there_false f p : exists_ f p = false <-> ~ is_there f p.
Proof. rewrite <- there. destruct (exists_ f p); split; intros H; congruence. Qed.
Lemma dir_spec f p : is_dir f p = true <-> directory f p.
Proof. unfold is_dir, directory. destruct (fs_get f p) as [[]|]; split; intros H; congruence. Qed.
Lemma full_spec f cwd text : fullpath f (Some cwd) text true = if exists_ f (named cwd text) then Ok (named cwd text) else Raise (OtherError "NonExistentPathError").
Proof.
  unfold fullpath, named. destruct (absolute text) eqn:A; cbn [bind current andb].
  - destruct (exists_ f (components text)); reflexivity.
  - rewrite join_target. unfold target. rewrite A. destruct (exists_ f (cwd ++ components text)); reflexivity.
Qed.

(** the search over resolved places *)
Fixpoint look (f : fs) (file : str) (ps : list path) : result (option path) :=
  match ps with
  | [] => Ok None
  | d :: ps' => if negb (exists_ f d) then Raise (OtherError "NonExistentPathError")
                else if is_dir f d && exists_ f (target d file) then Ok (Some (target d file)) else look f file ps'
  end.
Lemma search_look f cwd file dirs : search f (Some cwd) file dirs = look f file (places cwd dirs).
Proof.
  unfold search, places. cbn [bind current]. induction dirs as [|p dirs IH]; cbn [search_in map app look].
  - rewrite !join_target. destruct (exists_ f cwd); cbn [negb]; [|reflexivity]. destruct (is_dir f cwd); cbn [andb]; [|reflexivity]. destruct (exists_ f (target cwd file)); reflexivity.
  - rewrite full_spec. destruct (exists_ f (named cwd p)); cbn [bind negb]; [|reflexivity]. rewrite !join_target.
    destruct (is_dir f (named cwd p)); cbn [andb]; [|exact IH]. destruct (exists_ f (target (named cwd p) file)); [reflexivity|exact IH].
Qed.
Lemma hit f d file : is_dir f d && exists_ f (target d file) = true <-> holds_file f d file.
Proof. rewrite Bool.andb_true_iff, dir_spec, there. reflexivity. Qed.
Lemma no_hit f d file : is_dir f d && exists_ f (target d file) = false <-> ~ holds_file f d file.
Proof. rewrite <- hit. destruct (is_dir f d && exists_ f (target d file)); split; intros H; congruence. Qed.

(** The result is the file in the first place that holds it; every place
    before exists and does not hold the file. *)
Theorem C90_search_found f cwd file dirs r : search f (Some cwd) file dirs = Ok (Some r) <->
  exists before d after, places cwd dirs = before ++ d :: after /\
    Forall (fun p => is_there f p /\ ~ holds_file f p file) before /\ holds_file f d file /\ r = target d file.
Proof.
  rewrite search_look. generalize (places cwd dirs). induction l as [|d ps IH]; cbn [look].
  - split; [discriminate|]. intros (b & d & a & E & _). destruct b; discriminate E.
  - destruct (exists_ f d) eqn:X; cbn [negb].
    + destruct (is_dir f d && exists_ f (target d file)) eqn:H.
      * apply hit in H. split.
        -- intros E. injection E as <-. exists [], d, ps. split; [reflexivity|]. split; [constructor|]. auto.
        -- intros (b & e & a & E & F & G & ->). destruct b as [|x b]; cbn [app] in E; injection E as <- ->; [reflexivity|]. exfalso. inversion F as [|? ? (_ & N) _]; subst. contradiction.
      * apply no_hit in H. rewrite IH. split.
        -- intros (b & e & a & -> & F & G & ->). exists (d :: b), e, a. split; [reflexivity|]. split; [constructor; [split; [apply there, X|exact H]|exact F]|]. auto.
        -- intros (b & e & a & E & F & G & ->). destruct b as [|x b]; cbn [app] in E; injection E as <- ->; [contradiction|]. exists b, e, a. inversion F; subst. auto.
    + apply there_false in X. split; [discriminate|]. intros (b & e & a & E & F & G & _). destruct b as [|x b]; cbn [app] in E; injection E as <- ->.
      * destruct G as (G & _). unfold directory, is_there in *. exfalso. apply X. congruence.
      * inversion F as [|? ? (N & _) _]; subst. contradiction.
Qed.
Print Assumptions C90_search_found.

(** Nothing is returned exactly if every place exists and none holds the file. *)
Theorem C90_search_none f cwd file dirs : search f (Some cwd) file dirs = Ok None <->
  Forall (fun p => is_there f p /\ ~ holds_file f p file) (places cwd dirs).
Proof.
  rewrite search_look. generalize (places cwd dirs). induction l as [|d ps IH]; cbn [look]; [split; [constructor|reflexivity]|].
  destruct (exists_ f d) eqn:X; cbn [negb].
  - apply there in X. destruct (is_dir f d && exists_ f (target d file)) eqn:H.
    + apply hit in H. split; [discriminate|]. intros F. inversion F as [|? ? (_ & N) _]; subst. contradiction.
    + apply no_hit in H. rewrite IH. split; [intros F; constructor; auto|intros F; inversion F; assumption].
  - apply there_false in X. split; [discriminate|]. intros F. inversion F as [|? ? (N & _) _]; subst. contradiction.
Qed.
Print Assumptions C90_search_none.

(** The search fails exactly if a place does not exist and no place before it holds the file. *)
Theorem C90_search_fails f cwd file dirs e : search f (Some cwd) file dirs = Raise e <->
  e = OtherError "NonExistentPathError" /\ exists before d after, places cwd dirs = before ++ d :: after /\
    Forall (fun p => is_there f p /\ ~ holds_file f p file) before /\ ~ is_there f d.
Proof.
  rewrite search_look. generalize (places cwd dirs). induction l as [|d ps IH]; cbn [look].
  - split; [discriminate|]. intros (_ & b & d & a & E & _). destruct b; discriminate E.
  - destruct (exists_ f d) eqn:X; cbn [negb].
    + apply there in X. destruct (is_dir f d && exists_ f (target d file)) eqn:H.
      * apply hit in H. split; [discriminate|]. intros (_ & b & x & a & E & F & N). destruct b as [|y b]; cbn [app] in E; injection E as <- ->; [contradiction|].
        inversion F as [|? ? (_ & K) _]; subst. contradiction.
      * apply no_hit in H. rewrite IH. split.
        -- intros (-> & b & x & a & -> & F & N). split; [reflexivity|]. exists (d :: b), x, a. split; [reflexivity|]. split; [constructor; auto|exact N].
        -- intros (-> & b & x & a & E & F & N). split; [reflexivity|]. destruct b as [|y b]; cbn [app] in E; injection E as <- ->; [contradiction|]. exists b, x, a. inversion F; subst. auto.
    + apply there_false in X. split.
      * intros E. injection E as <-. split; [reflexivity|]. exists [], d, ps. split; [reflexivity|]. split; [constructor|exact X].
      * intros (-> & _). reflexivity.
Qed.
Print Assumptions C90_search_fails.
(** Without a current directory every search fails, whatever the places are. *)
Theorem C90_search_nowhere f file dirs : search f None file dirs = Raise (OtherError "FileNotFoundError").
Proof. reflexivity. Qed.
Print Assumptions C90_search_nowhere.

(** A user expects that a file in one of the places is found.  Refuted: a
    place that does not exist hides all that follow. *)
Theorem C90_search_skips_missing_refuted :
  exists f cwd file d, holds_file f (named cwd d) file /\ search f (Some cwd) file [s "missing"; d] = Raise (OtherError "NonExistentPathError") /\
    search f (Some cwd) file [d; s "missing"] = Ok (Some (target (named cwd d) file)).
Proof.
  exists [([s "w"], Dir); ([s "w"; s "in"], Dir); ([s "w"; s "in"; s "x.cfg"], File (Text []))], [s "w"], (s "x.cfg"), (s "in").
  split; [split; [reflexivity|discriminate]|]. split; vm_compute; reflexivity.
Qed.
Print Assumptions C90_search_skips_missing_refuted.
(** An absolute file name is found from every existing directory, related or not. *)
Theorem C90_search_absolute f cwd file d dirs : absolute file = true -> is_there f (components file) -> directory f (named cwd d) ->
  search f (Some cwd) file (d :: dirs) = Ok (Some (components file)).
Proof.
  intros A I D. apply C90_search_found. exists [], (named cwd d), (map (named cwd) dirs ++ [cwd]). split; [reflexivity|]. split; [constructor|].
  unfold holds_file, target. rewrite A. auto.
Qed.
Print Assumptions C90_search_absolute.

(** ** by templates *)
Lemma templates_spec f d ts n : first_template f d ts n = match find (fun t => exists_ f (target d (t n))) ts with Some t => Some (target d (t n)) | None => None end.
Proof. induction ts as [|t ts IH]; cbn [first_template find]; [reflexivity|]. rewrite !join_target. destruct (exists_ f (target d (t n))); [reflexivity|exact IH]. Qed.
(** The first template whose file exists in the directory decides. *)
Theorem C90_template_found f imported cwd ts n dir r : find_file_by_template f imported (Some cwd) ts n (Some dir) = Ok (Some r) <->
  is_there f (named cwd dir) /\ exists before t after, ts = before ++ t :: after /\
    Forall (fun u => ~ is_there f (target (named cwd dir) (u n))) before /\ is_there f (target (named cwd dir) (t n)) /\ r = target (named cwd dir) (t n).
Proof.
  unfold find_file_by_template. rewrite full_spec. destruct (exists_ f (named cwd dir)) eqn:X; cbn [bind].
  2:{ apply there_false in X. split; [discriminate|intros (I & _); contradiction]. }
  apply there in X. induction ts as [|t ts IH]; cbn [first_template].
  - split; [discriminate|]. intros (_ & b & t & a & E & _). destruct b; discriminate E.
  - rewrite !join_target. destruct (exists_ f (target (named cwd dir) (t n))) eqn:T.
    + apply there in T. split.
      * intros E. injection E as <-. split; [exact X|]. exists [], t, ts. split; [reflexivity|]. split; [constructor|]. auto.
      * intros (_ & b & u & a & E & F & I & ->). destruct b as [|v b]; cbn [app] in E; injection E as <- ->; [reflexivity|]. inversion F; subst. contradiction.
    + apply there_false in T. rewrite IH. split.
      * intros (_ & b & u & a & -> & F & I & ->). split; [exact X|]. exists (t :: b), u, a. split; [reflexivity|]. split; [constructor; assumption|]. auto.
      * intros (_ & b & u & a & E & F & I & ->). split; [exact X|]. destruct b as [|v b]; cbn [app] in E; injection E as <- ->; [contradiction|]. inversion F; subst. exists b, u, a. auto.
Qed.
Print Assumptions C90_template_found.
Theorem C90_template_none f imported cwd ts n dir : find_file_by_template f imported (Some cwd) ts n (Some dir) = Ok None <->
  is_there f (named cwd dir) /\ Forall (fun u => ~ is_there f (target (named cwd dir) (u n))) ts.
Proof.
  unfold find_file_by_template. rewrite full_spec. destruct (exists_ f (named cwd dir)) eqn:X; cbn [bind].
  2:{ apply there_false in X. split; [discriminate|intros (I & _); contradiction]. }
  apply there in X. induction ts as [|t ts IH]; cbn [first_template]; [split; auto|]. rewrite !join_target.
  destruct (exists_ f (target (named cwd dir) (t n))) eqn:T.
  - apply there in T. split; [discriminate|]. intros (_ & F). inversion F; subst. contradiction.
  - apply there_false in T. rewrite IH. split; intros (_ & F); (split; [exact X|]); [constructor; assumption|inversion F; assumption].
Qed.
Print Assumptions C90_template_none.
Theorem C90_template_missing f imported cwd ts n dir : ~ is_there f (named cwd dir) ->
  find_file_by_template f imported (Some cwd) ts n (Some dir) = Raise (OtherError "NonExistentPathError").
Proof. intros N. unfold find_file_by_template. rewrite full_spec. apply there_false in N. rewrite N. reflexivity. Qed.
Print Assumptions C90_template_missing.
(** Refuted: without a directory, the current directory is not the one that is
    searched, but the one in which the package was imported. *)
Theorem C90_template_current_refuted : exists f imported cwd ts n,
  find_file_by_template f (Some imported) (Some cwd) ts n None = Ok None /\
  find_file_by_template f (Some imported) (Some cwd) ts n (Some (s ".")) = Ok (Some (cwd ++ [n])) /\
  search f (Some cwd) n [] = Ok (Some (cwd ++ [n])).
Proof.
  exists [([s "a"], Dir); ([s "b"], Dir); ([s "b"; s "x"], File (Text []))], [s "a"], [s "b"], [fun n => n], (s "x"). repeat split; vm_compute; reflexivity.
Qed.
Print Assumptions C90_template_current_refuted.
(** Otherwise it is, for every history in which the current directory did not change. *)
Theorem C90_template_default f cwd ts n : is_there f cwd ->
  find_file_by_template f (Some cwd) (Some cwd) ts n None = find_file_by_template f (Some cwd) (Some cwd) ts n (Some (s ".")).
Proof.
  intros I. unfold find_file_by_template. rewrite full_spec. cbn [bind current]. unfold named. change (absolute (s ".")) with false. change (components (s ".")) with (@nil str).
  rewrite app_nil_r. cbv iota. apply there in I. rewrite I. reflexivity.
Qed.
Print Assumptions C90_template_default.

(** ** the number of lines
    Whatever the line ends are, every terminated line counts, and the rest of
    the text counts if it is not empty. *)
Theorem C90_lines f p nl lines final : In nl newline_conventions -> Forall one_line lines -> one_line final ->
  fs_get f p = Some (File (Text (text_of nl lines final))) ->
  count_lines f p = Ok (length lines + match final with [] => 0 | _ => 1 end).
Proof.
  intros N F O G. unfold count_lines, read. rewrite G. cbn [bind]. unfold readlines. rewrite (C32_lines nl lines final N F O).
  rewrite last_last. destruct final as [|c x]; [rewrite removelast_last; f_equal; apply plus_n_O|rewrite app_length; reflexivity].
Qed.
Print Assumptions C90_lines.
Theorem C90_lines_missing f p : fs_get f p = None -> count_lines f p = Raise (OtherError "FileNotFoundError").
Proof. intros G. unfold count_lines, read. rewrite G. reflexivity. Qed.
Print Assumptions C90_lines_missing.

Definition demo_fs : fs := [([s "w"], Dir); ([s "w"; s "in"], Dir); ([s "w"; s "in"; s "eprem.cfg"], File (Text [])); ([s "data"], File (Text (text_of (s "
") [s "a=1"; []; s "b"] (s "c"))))].
Example C90_search_case : search demo_fs (Some [s "w"]) (s "eprem.cfg") [s "/data"; s "in"] = Ok (Some [s "w"; s "in"; s "eprem.cfg"]) /\
  search demo_fs (Some [s "w"]) (s "x") [s "/data"; s "in"] = Ok None /\ count_lines demo_fs [s "data"] = Ok 4.
Proof. repeat split; vm_compute; reflexivity. Qed.
Example C90_template_case : find_file_by_template demo_fs (Some []) (Some [s "w"]) [fun n => n ++ s ".ini"; fun n => n ++ s ".cfg"] (s "eprem") (Some (s "in"))
  = Ok (Some [s "w"; s "in"; s "eprem.cfg"]).
Proof. vm_compute. reflexivity. Qed.
