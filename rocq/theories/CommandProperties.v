(** Property C89: command lines do what they say. *)
From Verif Require Import PyBase PyLemmas ContainerModel ContainerProofs ContainerProofs2 FsModel ProjectModel
  CommandModel CommandSpec CommandProofs.

(** ** The parsers of the code are well formed *)
Fixpoint distinct (l : list str) : bool :=
  match l with [] => true | x :: r => negb (mem str_eqb x r) && distinct r end.
Definition value_eqb (v w : value) : bool :=
  match v, w with VNone, VNone => true | VNum a, VNum b => N.eqb a b | VFlag a, VFlag b => Bool.eqb a b | _, _ => false end.
Definition checked (p : parser) : bool :=
  forallb (fun o => negb (list_eqb str_eqb (strings o) []) && forallb dashed (strings o)) (opts p)
  && distinct (flat_map strings (opts p)) && distinct (positionals p)
  && forallb (fun o => negb (mem str_eqb (dest o) (positionals p))) (opts p)
  && forallb (fun o => forallb (fun o' => negb (str_eqb (dest o) (dest o'))
        || value_eqb (default_of (okind o)) (default_of (okind o'))) (opts p)) (opts p).

Lemma distinct_nodup l : distinct l = true -> NoDup l.
Proof.
  induction l as [|x l IH]; intros H; [constructor|]. cbn in H. apply andb_prop in H as [H1 H2].
  constructor; [|now apply IH]. intros I. apply (mem_spec str_eqb str_eqb_eq) in I. now rewrite I in H1.
Qed.
Lemma nodup_flat {A} (f : A -> list str) l x a b : NoDup (flat_map f l) -> In a l -> In b l -> In x (f a) -> In x (f b) -> a = b.
Proof.
  induction l as [|c l IH]; intros N Ia Ib Xa Xb; [destruct Ia|]. cbn in N.
  assert (forall y, In y (f c) -> In y (flat_map f l) -> False) as D.
  { clear -N. induction (f c) as [|z r IHr]; intros y Hy Hl; [destruct Hy|]. cbn in N. inversion N; subst.
    destruct Hy as [->|Hy]; [apply H1; apply in_or_app; now right|now apply (IHr H2 y)]. }
  assert (NoDup (flat_map f l)) as N'.
  { clear -N. induction (f c) as [|z r IHr]; [exact N|]. cbn in N. inversion N. now apply IHr. }
  destruct Ia as [->|Ia], Ib as [->|Ib]; [reflexivity| | |now apply IH].
  - exfalso. apply (D x Xa). apply in_flat_map. now exists b.
  - exfalso. apply (D x Xb). apply in_flat_map. now exists a.
Qed.
Lemma checked_wf p : checked p = true -> well_formed p.
Proof.
  unfold checked. intros H. apply andb_prop in H as [H H5]. apply andb_prop in H as [H H4]. apply andb_prop in H as [H H3].
  apply andb_prop in H as [H1 H2]. rewrite forallb_forall in H1, H4, H5. constructor.
  - intros n o [Io In_] Pn. apply H1 in Io. apply andb_prop in Io as [_ Io]. rewrite forallb_forall in Io.
    apply Io in In_. apply plain_dashed in Pn. congruence.
  - intros n o o' [I1 N1] [I2 N2]. now apply (nodup_flat strings (opts p) n o o' (distinct_nodup _ H2)).
  - intros o Io E. apply H1 in Io. rewrite E in Io. discriminate.
  - now apply distinct_nodup.
  - intros o Io I. apply H4 in Io. apply (mem_spec str_eqb str_eqb_eq) in I. now rewrite I in Io.
  - intros o o' I1 I2 E. apply H5 in I1. rewrite forallb_forall in I1. apply I1 in I2. rewrite E, str_eqb_refl in I2. cbn in I2.
    destruct (okind o), (okind o'); try reflexivity; discriminate.
Qed.

(** All parsers of subcommands in the package *)
Definition parsers : list parser := [run_parser; mv_parser; rm_parser; create_parser; reset_parser; remove_parser;
  rename_parser; show_parser; configfile_parser].
Lemma parsers_wf p : In p parsers -> well_formed p.
Proof.
  intros H. apply checked_wf. revert H. unfold parsers. cbn [In].
  intros H. repeat (destruct H as [<-|H]; [vm_compute; reflexivity|]). destruct H.
Qed.

(** ** Every parser *)

(** A line that is written correctly and complete is accepted with the settings
    that it says. *)
Theorem C89_accepted : forall p items, In p parsers -> well_written p items -> complete p items ->
  exists a, parse p (line_of items) = Parsed a /\ settings_of p items a.
Proof. intros p items H. apply accepted. now apply parsers_wf. Qed.
Print Assumptions C89_accepted.

(** A line that is not complete is a usage error. *)
Theorem C89_refused : forall p items, In p parsers -> well_written p items -> ~ complete p items ->
  parse p (line_of items) = UsageError.
Proof. intros p items H. apply refused. now apply parsers_wf. Qed.
Print Assumptions C89_refused.

(** Nothing else is accepted. *)
Theorem C89_nothing_else : forall p ts a, In p parsers -> parse p ts = Parsed a ->
  exists items, ts = line_of items /\ well_written p items /\ complete p items /\ settings_of p items a.
Proof.
  intros p ts a H E. destruct (parsed_items p (parsers_wf p H) ts a E) as (items & <- & Wi & C).
  exists items. split; [reflexivity|]. split; [assumption|]. split; [assumption|].
  destruct (accepted p (parsers_wf p H) items Wi C) as (a' & E' & S). rewrite E in E'. injection E' as <-. exact S.
Qed.
Print Assumptions C89_nothing_else.

Lemma plain_letter c t : c <> "-"%char -> plain (c :: t).
Proof. intros N r E. injection E as E _. contradiction. Qed.
Ltac is_plain := first [apply plain_letter; discriminate | intros ? ?; discriminate].

Example C89_example :
  let items := [Option (s "--force") []; Bare (s "eprem.cfg"); Option (s "-b") [s "A"; s "B"]; Option (s "-n") [s "4"];
    Option (s "--nproc") [s "8"]] in
  well_written run_parser items /\ complete run_parser items
  /\ line_of items = [s "--force"; s "eprem.cfg"; s "-b"; s "A"; s "B"; s "-n"; s "4"; s "--nproc"; s "8"]
  /\ exists a, parse run_parser (line_of items) = Parsed a /\ a (s "nproc") = VNum 8 /\ a (s "branches") = VTexts [s "A"; s "B"]
     /\ a (s "force") = VFlag true /\ a (s "verbose") = VFlag false /\ a (s "config") = VText (s "eprem.cfg") /\ a (s "target") = VNone.
Proof.
  assert (forall n o, In o (opts run_parser) -> In n (strings o) -> called run_parser n o) as C by (intros; now split).
  split; [|split; [|split; [reflexivity|]]].
  - cbn [well_written]. split.
    { exists (flag "-f" "--force" "force"). split; [apply C; cbn; tauto|]. split; [reflexivity|]. intros [|]; discriminate. }
    split; [constructor|]. split; [is_plain|]. split.
    { exists (mkopt [s "-b"; s "--branches"] (s "branches") KMany false). split; [apply C; cbn; tauto|]. split; [exact I|]. intros _ t r. discriminate. }
    split; [repeat constructor; is_plain|].
    assert (forall n t, In n [s "-n"; s "--nproc"] -> In t [s "4"; s "8"] -> forall r, exists o, called run_parser n o /\ fitting (okind o) [t]
      /\ (greedy (okind o) -> forall t' r', r <> Bare t' :: r')) as N.
    { intros n t Hn Ht r. exists (mkopt [s "-n"; s "--nproc"] (s "nproc") KInt false). split; [apply C; [cbn; tauto|assumption]|].
      split; [|intros [|]; discriminate]. exists t. split; [reflexivity|]. destruct Ht as [<-|[<-|[]]]; (split; [discriminate|repeat constructor]). }
    split; [apply N; cbn; tauto|]. split; [repeat constructor; is_plain|].
    split; [apply N; cbn; tauto|]. split; [repeat constructor; is_plain|exact I].
  - split; [reflexivity|]. split; [|discriminate]. intros o o' (n & args & _ & [I _]) _ X. exfalso.
    cbn in I. repeat (destruct I as [<-|I]; [discriminate|]). destruct I.
  - eexists. split; [vm_compute; reflexivity|]. repeat split; vm_compute; reflexivity.
Qed.

(** ** Reading single settings *)

(** One of the given names is an item, with these arguments; the last such item. *)
Definition has (items : list item) (names : list str) : Prop := exists n args, In n names /\ In (Option n args) items.
Definition last_is (items : list item) (names : list str) (args : list str) : Prop :=
  exists before n after, items = before ++ Option n args :: after /\ In n names /\ ~ has after names.

Lemma has_dec items names : has items names \/ ~ has items names.
Proof.
  induction items as [|[t|m b] r IHr]; [right; intros (n & args & _ & [])| |].
  - destruct IHr as [(n & args & A & B)|N]; [left; exists n, args; split; [assumption|now right]|].
    right. intros (n & args & A & [B|B]); [discriminate|]. apply N. now exists n, args.
  - destruct (in_dec str_eq_dec m names) as [Im|Nm]; [left; exists m, b; split; [assumption|now left]|].
    destruct IHr as [(n & args & A & B)|N]; [left; exists n, args; split; [assumption|now right]|].
    right. intros (n & args & A & [B|B]); [injection B as <- <-; contradiction|]. apply N. now exists n, args.
Qed.

Lemma last_exists items names : has items names -> exists args, last_is items names args.
Proof.
  induction items as [|i items IH]; intros (n & args & Hn & H); [destruct H|].
  destruct (has_dec items names) as [Y|N].
  - destruct (IH Y) as (b & before & n' & after & -> & K). exists b, (i :: before), n', after. now split.
  - destruct H as [->|H]; [|exfalso; apply N; now exists n, args]. exists args, [], n, items. now split.
Qed.

Section Settings.
Variable p : parser.
Hypothesis W : well_formed p.
Variable items : list item.
Variable a : namespace.
Hypothesis S : settings_of p items a.
Variable o : opt.
Hypothesis Io : In o (opts p).
(** no other option for the same setting *)
Hypothesis Only : forall o', In o' (opts p) -> dest o' = dest o -> o' = o.

Lemma setting_last args : last_is items (strings o) args -> value_for (okind o) args (a (dest o)).
Proof using W S Io Only.
  intros (before & n & after & E & Hn & Na). apply (last_counts _ _ _ S before n args after o E); [now split|].
  intros o' (n' & args' & I & [I' C]) D. apply Na. exists n', args'. split; [|assumption].
  now rewrite <- (Only o' I' D).
Qed.
Lemma setting_none : ~ has items (strings o) -> a (dest o) = default_of (okind o).
Proof using W S Io Only.
  intros N. rewrite (else_default _ _ _ S (dest o) (names_apart _ W o Io)) with (o := o).
  - reflexivity.
  - intros o' (n & args & I & [I' C]) D. apply N. exists n, args. split; [|assumption]. now rewrite <- (Only o' I' D).
  - assumption.
  - reflexivity.
Qed.
End Settings.


(** What a line says about a setting: whether a flag is given; the text of the
    last option of a name; the list of the last one; the number. *)
Definition says_flag (items : list item) (names : list str) (b : bool) : Prop := b = true <-> has items names.
Definition says_text (items : list item) (names : list str) (v : option str) : Prop :=
  match v with Some t => last_is items names [t] | None => ~ has items names end.
Definition says_list (items : list item) (names : list str) (v : option (list str)) : Prop :=
  match v with Some l => last_is items names l | None => ~ has items names end.

Section Reading.
Variable p : parser.
Hypothesis W : well_formed p.
Variable items : list item.
Variable a : namespace.
Hypothesis S : settings_of p items a.
Variable o : opt.
Hypothesis Io : In o (opts p).
Hypothesis Only : forall o', In o' (opts p) -> dest o' = dest o -> o' = o.

Lemma read_flag b : okind o = KFlag -> says_flag items (strings o) b -> on (a (dest o)) = b.
Proof using W S Io Only.
  intros K B. destruct (has_dec items (strings o)) as [Y|N].
  - destruct (last_exists _ _ Y) as (args & L). pose proof (setting_last p W items a S o Io Only args L) as V.
    rewrite K in V. cbn in V. rewrite V. cbn. symmetry. now apply B.
  - rewrite (setting_none p W items a S o Io Only N), K. cbn. destruct b; [exfalso; apply N; now apply B|reflexivity].
Qed.
Lemma read_text v : okind o = KOne -> says_text items (strings o) v -> text (a (dest o)) = v.
Proof using W S Io Only.
  intros K B. destruct v as [t|]; cbn in B.
  - pose proof (setting_last p W items a S o Io Only _ B) as V. rewrite K in V. cbn in V. destruct V as (t' & E & ->). injection E as <-. reflexivity.
  - rewrite (setting_none p W items a S o Io Only B), K. reflexivity.
Qed.
Lemma read_list v : okind o = KMany -> says_list items (strings o) v -> texts (a (dest o)) = v.
Proof using W S Io Only.
  intros K B. destruct v as [t|]; cbn in B.
  - pose proof (setting_last p W items a S o Io Only _ B) as V. rewrite K in V. cbn in V. now rewrite V.
  - rewrite (setting_none p W items a S o Io Only B), K. reflexivity.
Qed.
Lemma read_number v : okind o = KInt -> says_text items (strings o) v ->
  number (a (dest o)) = match v with Some t => N_of_str t | None => 1%N end.
Proof using W S Io Only.
  intros K B. destruct v as [t|]; cbn in B.
  - pose proof (setting_last p W items a S o Io Only _ B) as V. rewrite K in V. cbn in V. destruct V as (t' & E & ->). injection E as <-. reflexivity.
  - rewrite (setting_none p W items a S o Io Only B), K. reflexivity.
Qed.
End Reading.

Ltac sole := cbn [opts In]; let H := fresh in let E := fresh in intros ? H E; cbn in H;
  repeat (destruct H as [<-|H]; [first [reflexivity | exfalso; revert E; vm_compute; discriminate]|]); destruct H.
Ltac member := repeat (hnf; first [left; reflexivity | right]).

Ltac use L := let H := fresh in pose proof L as H; cbn [dest flag one] in H; rewrite H; clear H.
Ltac no_groups := let o := fresh in let I := fresh in let X := fresh in
  intros o ? (? & ? & _ & [I _]) _ X; exfalso; cbn in I; repeat (destruct I as [<-|I]; [discriminate|]); destruct I.

(** ** The script of a project *)

Definition force_names : list str := [s "-f"; s "--force"].
Definition verbose_names : list str := [s "-v"; s "--verbose"].
Definition branch_names : list str := [s "-b"; s "--branches"].

(** [mv]: the two names in order, the named branches, exceptions unless [-f] is given,
    messages only with [-v]. *)
Theorem C89_script_mv : forall items source target bs force verbose,
  well_written mv_parser items -> bare items = [source; target] ->
  says_list items branch_names bs ->
  says_flag items force_names force ->
  says_flag items verbose_names verbose ->
  dispatch script_commands (s "mv" :: line_of items)
  = Parsed (Ok (CallMv source target bs (negb force) (negb verbose))).
Proof.
  intros items source target bs force verbose Ww B Q0 Q1 Q2.
  destruct (C89_accepted mv_parser items) as (a & E & S); [unfold parsers; member|assumption| |].
  { split; [now rewrite B|]. split; [no_groups|discriminate]. }
  change (dispatch script_commands (s "mv" :: line_of items)) with
    (match parse mv_parser (line_of items) with
     | Parsed a => Parsed (Ok (CallMv (given_text (a (s "source"))) (given_text (a (s "target"))) (texts (a (s "branches"))) (negb (on (a (s "force")))) (negb (on (a (s "verbose"))))))
     | UsageError => UsageError | Unmodelled => Unmodelled end).
  rewrite E. assert (W : well_formed mv_parser) by (apply parsers_wf; unfold parsers; member).
  rewrite (bare_in_order _ _ _ S 0 (s "source") source eq_refl) by now rewrite B.
  rewrite (bare_in_order _ _ _ S 1 (s "target") target eq_refl) by now rewrite B.
  use (read_list mv_parser W items a S (mkopt [s "-b"; s "--branches"] (s "branches") KMany false) ltac:(member) ltac:(sole) bs eq_refl Q0).
  use (read_flag mv_parser W items a S (flag "-f" "--force" "force") ltac:(member) ltac:(sole) force eq_refl Q1).
  use (read_flag mv_parser W items a S (flag "-v" "--verbose" "verbose") ltac:(member) ltac:(sole) verbose eq_refl Q2).
  reflexivity.
Qed.
Print Assumptions C89_script_mv.

(** [rm] *)
Theorem C89_script_rm : forall items target bs force verbose,
  well_written rm_parser items -> bare items = [target] ->
  says_list items branch_names bs ->
  says_flag items force_names force ->
  says_flag items verbose_names verbose ->
  dispatch script_commands (s "rm" :: line_of items)
  = Parsed (Ok (CallRm target bs (negb force) (negb verbose))).
Proof.
  intros items target bs force verbose Ww B Q0 Q1 Q2.
  destruct (C89_accepted rm_parser items) as (a & E & S); [unfold parsers; member|assumption| |].
  { split; [now rewrite B|]. split; [no_groups|discriminate]. }
  change (dispatch script_commands (s "rm" :: line_of items)) with
    (match parse rm_parser (line_of items) with
     | Parsed a => Parsed (Ok (CallRm (given_text (a (s "target"))) (texts (a (s "branches"))) (negb (on (a (s "force")))) (negb (on (a (s "verbose"))))))
     | UsageError => UsageError | Unmodelled => Unmodelled end).
  rewrite E. assert (W : well_formed rm_parser) by (apply parsers_wf; unfold parsers; member).
  rewrite (bare_in_order _ _ _ S 0 (s "target") target eq_refl) by now rewrite B.
  use (read_list rm_parser W items a S (mkopt [s "-b"; s "--branches"] (s "branches") KMany false) ltac:(member) ltac:(sole) bs eq_refl Q0).
  use (read_flag rm_parser W items a S (flag "-f" "--force" "force") ltac:(member) ltac:(sole) force eq_refl Q1).
  use (read_flag rm_parser W items a S (flag "-v" "--verbose" "verbose") ltac:(member) ltac:(sole) verbose eq_refl Q2).
  reflexivity.
Qed.
Print Assumptions C89_script_rm.

(** [run]: moreover the name of the run, the programs, and the number of processes,
    which is 1 if it is not given. *)
Theorem C89_script_run : forall items config name bs np mpirun eprem force verbose,
  well_written run_parser items -> bare items = [config] ->
  says_text items [s "-t"; s "--target"] name ->
  says_list items branch_names bs ->
  says_text items [s "-n"; s "--nproc"] np ->
  says_flag items force_names force ->
  says_text items [s "-m"; s "--mpirun"] mpirun ->
  says_text items [s "-e"; s "--eprem"] eprem ->
  says_flag items verbose_names verbose ->
  dispatch script_commands (s "run" :: line_of items)
  = Parsed (Ok (CallRun config name bs (match np with Some t => N_of_str t | None => 1%N end) mpirun eprem (negb force) (negb verbose))).
Proof.
  intros items config name bs np mpirun eprem force verbose Ww B Q0 Q1 Q2 Q3 Q4 Q5 Q6.
  destruct (C89_accepted run_parser items) as (a & E & S); [unfold parsers; member|assumption| |].
  { split; [now rewrite B|]. split; [no_groups|discriminate]. }
  change (dispatch script_commands (s "run" :: line_of items)) with
    (match parse run_parser (line_of items) with
     | Parsed a => Parsed (Ok (CallRun (given_text (a (s "config"))) (text (a (s "target"))) (texts (a (s "branches"))) (number (a (s "nproc"))) (text (a (s "mpirun"))) (text (a (s "eprem"))) (negb (on (a (s "force")))) (negb (on (a (s "verbose"))))))
     | UsageError => UsageError | Unmodelled => Unmodelled end).
  rewrite E. assert (W : well_formed run_parser) by (apply parsers_wf; unfold parsers; member).
  rewrite (bare_in_order _ _ _ S 0 (s "config") config eq_refl) by now rewrite B.
  use (read_text run_parser W items a S (one "-t" "--target" "target") ltac:(member) ltac:(sole) name eq_refl Q0).
  use (read_list run_parser W items a S (mkopt [s "-b"; s "--branches"] (s "branches") KMany false) ltac:(member) ltac:(sole) bs eq_refl Q1).
  use (read_number run_parser W items a S (mkopt [s "-n"; s "--nproc"] (s "nproc") KInt false) ltac:(member) ltac:(sole) np eq_refl Q2).
  use (read_flag run_parser W items a S (flag "-f" "--force" "force") ltac:(member) ltac:(sole) force eq_refl Q3).
  use (read_text run_parser W items a S (one "-m" "--mpirun" "mpirun") ltac:(member) ltac:(sole) mpirun eq_refl Q4).
  use (read_text run_parser W items a S (one "-e" "--eprem" "eprem") ltac:(member) ltac:(sole) eprem eq_refl Q5).
  use (read_flag run_parser W items a S (flag "-v" "--verbose" "verbose") ltac:(member) ltac:(sole) verbose eq_refl Q6).
  reflexivity.
Qed.
Print Assumptions C89_script_run.

(** ** Managing projects *)

(** [reset] *)
Theorem C89_reset : forall items path force verbose,
  well_written reset_parser items -> bare items = [path] ->
  says_flag items force_names force ->
  says_flag items verbose_names verbose ->
  dispatch project_commands (s "reset" :: line_of items)
  = Parsed (Ok (CallReset path force (negb verbose))).
Proof.
  intros items path force verbose Ww B Q0 Q1.
  destruct (C89_accepted reset_parser items) as (a & E & S); [unfold parsers; member|assumption| |].
  { split; [now rewrite B|]. split; [no_groups|discriminate]. }
  change (dispatch project_commands (s "reset" :: line_of items)) with
    (match parse reset_parser (line_of items) with
     | Parsed a => Parsed (Ok (CallReset (given_text (a (s "path"))) (on (a (s "force"))) (negb (on (a (s "verbose"))))))
     | UsageError => UsageError | Unmodelled => Unmodelled end).
  rewrite E. assert (W : well_formed reset_parser) by (apply parsers_wf; unfold parsers; member).
  rewrite (bare_in_order _ _ _ S 0 (s "path") path eq_refl) by now rewrite B.
  use (read_flag reset_parser W items a S (flag "-f" "--force" "force") ltac:(member) ltac:(sole) force eq_refl Q0).
  use (read_flag reset_parser W items a S (flag "-v" "--verbose" "verbose") ltac:(member) ltac:(sole) verbose eq_refl Q1).
  reflexivity.
Qed.
Print Assumptions C89_reset.

(** [remove] *)
Theorem C89_remove : forall items path force verbose,
  well_written remove_parser items -> bare items = [path] ->
  says_flag items force_names force ->
  says_flag items verbose_names verbose ->
  dispatch project_commands (s "remove" :: line_of items)
  = Parsed (Ok (CallRemove path force (negb verbose))).
Proof.
  intros items path force verbose Ww B Q0 Q1.
  destruct (C89_accepted remove_parser items) as (a & E & S); [unfold parsers; member|assumption| |].
  { split; [now rewrite B|]. split; [no_groups|discriminate]. }
  change (dispatch project_commands (s "remove" :: line_of items)) with
    (match parse remove_parser (line_of items) with
     | Parsed a => Parsed (Ok (CallRemove (given_text (a (s "path"))) (on (a (s "force"))) (negb (on (a (s "verbose"))))))
     | UsageError => UsageError | Unmodelled => Unmodelled end).
  rewrite E. assert (W : well_formed remove_parser) by (apply parsers_wf; unfold parsers; member).
  rewrite (bare_in_order _ _ _ S 0 (s "path") path eq_refl) by now rewrite B.
  use (read_flag remove_parser W items a S (flag "-f" "--force" "force") ltac:(member) ltac:(sole) force eq_refl Q0).
  use (read_flag remove_parser W items a S (flag "-v" "--verbose" "verbose") ltac:(member) ltac:(sole) verbose eq_refl Q1).
  reflexivity.
Qed.
Print Assumptions C89_remove.

(** [rename] *)
Theorem C89_rename : forall items path target force verbose,
  well_written rename_parser items -> bare items = [path; target] ->
  says_flag items force_names force ->
  says_flag items verbose_names verbose ->
  dispatch project_commands (s "rename" :: line_of items)
  = Parsed (Ok (CallRename path target force (negb verbose))).
Proof.
  intros items path target force verbose Ww B Q0 Q1.
  destruct (C89_accepted rename_parser items) as (a & E & S); [unfold parsers; member|assumption| |].
  { split; [now rewrite B|]. split; [no_groups|discriminate]. }
  change (dispatch project_commands (s "rename" :: line_of items)) with
    (match parse rename_parser (line_of items) with
     | Parsed a => Parsed (Ok (CallRename (given_text (a (s "path"))) (given_text (a (s "target"))) (on (a (s "force"))) (negb (on (a (s "verbose"))))))
     | UsageError => UsageError | Unmodelled => Unmodelled end).
  rewrite E. assert (W : well_formed rename_parser) by (apply parsers_wf; unfold parsers; member).
  rewrite (bare_in_order _ _ _ S 0 (s "path") path eq_refl) by now rewrite B.
  rewrite (bare_in_order _ _ _ S 1 (s "target") target eq_refl) by now rewrite B.
  use (read_flag rename_parser W items a S (flag "-f" "--force" "force") ltac:(member) ltac:(sole) force eq_refl Q0).
  use (read_flag rename_parser W items a S (flag "-v" "--verbose" "verbose") ltac:(member) ltac:(sole) verbose eq_refl Q1).
  reflexivity.
Qed.
Print Assumptions C89_rename.

(** [create]: every name that is given, and nothing for the others *)
Theorem C89_create : forall items path bs config inputs output rundir logname copy,
  well_written create_parser items -> bare items = [path] ->
  says_list items branch_names bs ->
  says_text items [s "-c"; s "--config"] config ->
  says_text items [s "-i"; s "--inputs"] inputs ->
  says_text items [s "-o"; s "--output"] output ->
  says_text items [s "-d"; s "--rundir"] rundir ->
  says_text items [s "-l"; s "--logname"] logname ->
  says_text items [s "--copy"] copy ->
  dispatch project_commands (s "create" :: line_of items)
  = Parsed (Ok (CallCreate path (mkoptions bs config inputs output rundir logname) copy)).
Proof.
  intros items path bs config inputs output rundir logname copy Ww B Q0 Q1 Q2 Q3 Q4 Q5 Q6.
  destruct (C89_accepted create_parser items) as (a & E & S); [unfold parsers; member|assumption| |].
  { split; [now rewrite B|]. split; [no_groups|discriminate]. }
  change (dispatch project_commands (s "create" :: line_of items)) with
    (match parse create_parser (line_of items) with
     | Parsed a => Parsed (Ok (CallCreate (given_text (a (s "path"))) (mkoptions (texts (a (s "branches"))) (text (a (s "config"))) (text (a (s "inputs"))) (text (a (s "output"))) (text (a (s "rundir"))) (text (a (s "logname")))) (text (a (s "copy")))))
     | UsageError => UsageError | Unmodelled => Unmodelled end).
  rewrite E. assert (W : well_formed create_parser) by (apply parsers_wf; unfold parsers; member).
  rewrite (bare_in_order _ _ _ S 0 (s "path") path eq_refl) by now rewrite B.
  use (read_list create_parser W items a S (mkopt [s "-b"; s "--branches"] (s "branches") KMany false) ltac:(member) ltac:(sole) bs eq_refl Q0).
  use (read_text create_parser W items a S (one "-c" "--config" "config") ltac:(member) ltac:(sole) config eq_refl Q1).
  use (read_text create_parser W items a S (one "-i" "--inputs" "inputs") ltac:(member) ltac:(sole) inputs eq_refl Q2).
  use (read_text create_parser W items a S (one "-o" "--output" "output") ltac:(member) ltac:(sole) output eq_refl Q3).
  use (read_text create_parser W items a S (one "-d" "--rundir" "rundir") ltac:(member) ltac:(sole) rundir eq_refl Q4).
  use (read_text create_parser W items a S (one "-l" "--logname" "logname") ltac:(member) ltac:(sole) logname eq_refl Q5).
  use (read_text create_parser W items a S (mkopt [s "--copy"] (s "copy") KOne false) ltac:(member) ltac:(sole) copy eq_refl Q6).
  reflexivity.
Qed.
Print Assumptions C89_create.

