(** * Configuration files: the theorems (C32, C33) *)
From Verif Require Import PyBase PyLemmas ContainerModel ContainerSpec ContainerProofs ContainerProofs2 SymbolicModel SymbolicProofs SymbolicTotal
  ConfigModel ConfigSpec ConfigProofs.
From Coq Require Import Permutation Sorted Lia.

(** ** C32 *)
Definition markers (marks : list ascii) : list str := map (fun c : ascii => [c]) marks.

(** A line is ignored, gives the assignment it states, or is rejected. *)
Theorem C32_line marks line :
  (parse_line (markers marks) line = Ok None <-> ignored marks line) /\
  (forall k v, parse_line (markers marks) line = Ok (Some (k, v)) <-> assigns marks line k v) /\
  (forall e, parse_line (markers marks) line = Raise e <-> e = ValueError /\ ~ ignored marks line /\ forall k v, ~ assigns marks line k v).
Proof.
  unfold markers. destruct (line_cases marks line) as [(-> & I)|[(k & v & -> & A)|(-> & N & B)]].
  - split; [split; auto|]. split; [intros k v; split; [discriminate|intros A; exfalso; exact (ignored_not_assigns _ _ _ _ I A)]|].
    intros e. split; [discriminate|intros (_ & N & _); contradiction].
  - split; [split; [discriminate|intros I; exfalso; exact (ignored_not_assigns _ _ _ _ I A)]|].
    split; [intros k' v'; split|].
    + intros H. injection H as <- <-. exact A.
    + intros A'. destruct (assigns_functional _ _ _ _ _ _ A A') as (-> & ->). reflexivity.
    + intros e. split; [discriminate|intros (_ & _ & B); exfalso; exact (B k v A)].
  - split; [split; [discriminate|contradiction]|]. split; [intros k v; split; [discriminate|intros A; exfalso; exact (B k v A)]|].
    intros e. split; [intros H; injection H as <-; split; [reflexivity|split; assumption]|intros (-> & _); reflexivity].
Qed.
Print Assumptions C32_line.

(** The order in which the set of markers is traversed does not matter. *)
Theorem C32_marker_order marks marks' line : Permutation marks marks' ->
  parse_line (markers marks) line = parse_line (markers marks') line.
Proof.
  intros P. assert (E : forall c, is_mark marks c = is_mark marks' c).
  { intros c. apply Bool.eq_iff_eq_true. rewrite !is_mark_spec. split; apply Permutation_in; [exact P|apply Permutation_sym, P]. }
  unfold parse_line, markers. destruct line as [|c line]; [reflexivity|]. rewrite !mark_in, E. destruct (is_mark marks' c); [reflexivity|].
  rewrite !strip_marks, (upto_ext _ _ (c :: line) E). reflexivity.
Qed.
Print Assumptions C32_marker_order.

Lemma newlines_solid l x : one_line l -> newlines (l ++ x) = l ++ newlines x.
Proof.
  intros (N1 & N2). induction l as [|c l IH]; [reflexivity|]. cbn [app newlines].
  destruct (Ascii.eqb_spec c return_) as [->|_]; [exfalso; apply N2; left; reflexivity|]. f_equal. apply IH.
  - intros H. apply N1. right. exact H.
  - intros H. apply N2. right. exact H.
Qed.
Lemma newlines_feed x : newlines ("010"%char :: x) = "010"%char :: newlines x.
Proof. reflexivity. Qed.
Lemma newlines_crlf x : newlines ("013"%char :: "010"%char :: x) = "010"%char :: newlines x.
Proof. reflexivity. Qed.
Lemma newlines_cr d x : d <> "010"%char -> newlines ("013"%char :: d :: x) = "010"%char :: newlines (d :: x).
Proof.
  intros H. cbn [newlines]. change (Ascii.eqb "013" return_) with true. cbv iota.
  destruct (Ascii.eqb_spec d newline) as [E|_]; [contradiction H; exact E|reflexivity].
Qed.
Lemma newlines_text nl lines final : In nl newline_conventions -> Forall one_line lines -> one_line final ->
  newlines (text_of nl lines final) = text_of ["010"%char] lines final.
Proof.
  intros I F O. induction F as [|l lines OL F IH].
  - unfold text_of. cbn. rewrite <- (app_nil_r final) at 1. rewrite newlines_solid by exact O. apply app_nil_r.
  - assert (U : forall nl, text_of nl (l :: lines) final = l ++ nl ++ text_of nl lines final).
    { intros m. unfold text_of. cbn [map concat]. rewrite <- !app_assoc. reflexivity. }
    rewrite !U. rewrite newlines_solid by exact OL. f_equal.
    destruct I as [<-|[<-|[<-|[]]]]; cbn [app].
    + rewrite newlines_feed, IH. reflexivity.
    + rewrite newlines_crlf, IH. reflexivity.
    + rewrite <- IH. destruct (text_of ["013"%char] lines final) as [|d x] eqn:E; [reflexivity|].
      apply newlines_cr. intros ->. clear IH U.
      destruct lines as [|[|c l'] lines].
      * unfold text_of in E. cbn in E. subst final. apply (proj1 O). left. reflexivity.
      * unfold text_of in E. cbn in E. discriminate.
      * unfold text_of in E. cbn in E. injection E as -> _. inversion F as [|? ? (OL1 & _) _]; subst. apply OL1. left. reflexivity.
Qed.
Lemma split_text lines final : Forall one_line lines -> one_line final -> split_from [newline] 0 [] (text_of ["010"%char] lines final) = lines ++ [final].
Proof.
  intros F O. induction F as [|l lines (OL & _) F IH].
  - unfold text_of. cbn [map concat app]. rewrite split_char, (proj2 (after_none newline final) (proj1 O)). reflexivity.
  - replace (text_of ["010"%char] (l :: lines) final) with (l ++ newline :: text_of ["010"%char] lines final)
      by (unfold text_of; cbn [map concat]; rewrite <- !app_assoc; reflexivity).
    rewrite split_char. destruct (after_app newline l (text_of ["010"%char] lines final) OL) as (A & B). rewrite A, B, IH. reflexivity.
Qed.
(** The lines of a file do not depend on how it ends its lines. *)
Theorem C32_lines nl lines final : In nl newline_conventions -> Forall one_line lines -> one_line final ->
  file_lines (text_of nl lines final) = lines ++ [final].
Proof. intros I F O. unfold file_lines. rewrite newlines_text by assumption. apply split_text; assumption. Qed.
Print Assumptions C32_lines.

(** Reading a file: it is accepted iff every line is ignored or an assignment,
    and then each key has the last value assigned to it, and nothing else. *)
Theorem C32_file marks nl lines final : In nl newline_conventions -> Forall one_line lines -> one_line final ->
  let all := lines ++ [final] in
  match parse_config (markers marks) (text_of nl lines final) with
  | Ok d => Forall (fun l => ignored marks l \/ exists k v, assigns marks l k v) all /\ NoDup (map fst d) /\
            forall k v, config_get d k = Ok v <-> last_assigned marks all k v
  | Raise e => e = ValueError /\ exists l, In l all /\ ~ ignored marks l /\ forall k v, ~ assigns marks l k v
  end.
Proof.
  intros I F O all. unfold parse_config. rewrite C32_lines by assumption. fold all. unfold markers.
  destruct (parse_lines _ all []) as [d|e] eqn:E.
  - apply parse_lines_ok in E as (ND & A & G); [|constructor]. split; [exact A|]. split; [exact ND|].
    intros k v. unfold config_get. rewrite G. split; [intros [H|[H _]]; [exact H|discriminate]|auto].
  - apply parse_lines_error in E. exact E.
Qed.
Print Assumptions C32_file.

Lemma assigned_dec marks k lines : (forall l w, In l lines -> ~ assigns marks l k w) \/ exists l w, In l lines /\ assigns marks l k w.
Proof.
  induction lines as [|l lines [N|(l' & w & I & A)]]; [left; intros l w []| |right; exists l', w; split; [right; exact I|exact A]].
  destruct (line_cases marks l) as [(_ & I)|[(k' & v & _ & A)|(_ & _ & B)]].
  - left. intros l' w [<-|H]; [apply ignored_not_assigns, I|apply N, H].
  - destruct (str_eq_dec k k') as [->|D]; [right; exists l, v; split; [left; reflexivity|exact A]|].
    left. intros l' w [<-|H]; [|apply N, H]. intros A'. destruct (assigns_functional _ _ _ _ _ _ A A') as (E & _). congruence.
  - left. intros l' w [<-|H]; [apply B|apply N, H].
Qed.
(** A missing key raises [KeyError]. *)
Theorem C32_missing marks text d k : parse_config (markers marks) text = Ok d ->
  (config_get d k = Raise KeyError <-> forall l w, In l (file_lines text) -> ~ assigns marks l k w).
Proof.
  unfold parse_config, markers, config_get. intros E. apply parse_lines_ok in E as (ND & A & G); [|constructor]. split.
  - intros K l w I H.
    assert (X : exists v, last_assigned marks (file_lines text) k v).
    { clear -I H. revert l w I H. induction (file_lines text) as [|x xs IH]; intros l w I0 H; [destruct I0|destruct I0 as [E0|H0]].
      - subst x. destruct (assigned_dec marks k xs) as [N|(l' & w' & I' & H')].
        + exists w, [], l, xs. split; [reflexivity|split; assumption].
        + destruct (IH _ _ I' H') as (v & b & y & a & -> & Q). exists v, (l :: b), y, a. split; [reflexivity|exact Q].
      - destruct (IH _ _ H0 H) as (v & b & y & a & -> & Q). exists v, (x :: b), y, a. split; [reflexivity|exact Q]. }
    destruct X as (v & X). rewrite (proj2 (G k v) (or_introl X)) in K. discriminate.
  - intros N. destruct (lookup str_eqb d k) as [v|e] eqn:L.
    + apply G in L as [(b & l & a & E & H & _)|[L _]]; [|discriminate]. exfalso. apply (N l v); [rewrite E; apply in_or_app; right; left; reflexivity|exact H].
    + apply (lookup_missing str_eqb str_decides) in L as (-> & _). reflexivity.
Qed.
Print Assumptions C32_missing.

(** Neither comment markers nor surrounding blanks are left in names and values. *)
Theorem C32_clean marks line k v : assigns marks line k v ->
  (forall c, In c k \/ In c v -> ~ In c marks /\ c <> "="%char) /\ strip k = k /\ strip v = v.
Proof.
  intros (kt & vt & (t & E & N & _) & NK & NV & TK & TV).
  assert (IK : forall c, In c k -> In c kt) by (destruct TK as (a & b & -> & _); intros c H; apply in_or_app; right; apply in_or_app; left; exact H).
  assert (IV : forall c, In c v -> In c vt) by (destruct TV as (a & b & -> & _); intros c H; apply in_or_app; right; apply in_or_app; left; exact H).
  assert (ID : forall x y, trimmed x y -> strip y = y).
  { intros x y (a & b & _ & _ & _ & H). symmetry. apply trimmed_strip. exists [], []. rewrite app_nil_r. split; [reflexivity|].
    split; [constructor|]. split; [constructor|]. destruct y; [left; reflexivity|exact H]. }
  split; [|split; eapply ID; eassumption].
  intros c [H|H].
  - split; [apply N, in_or_app; left; apply IK, H|intros ->; apply NK, IK, H].
  - split; [apply N, in_or_app; right; right; apply IV, H|intros ->; apply NV, IV, H].
Qed.
Print Assumptions C32_clean.

(** Writing assignments and reading them back is the identity. *)
Definition plain (marks : list ascii) (x : str) : Prop :=
  one_line x /\ strip x = x /\ forall c, In c x -> ~ In c marks /\ c <> "="%char.
Theorem C32_round_trip marks nl (pairs : list (str * str)) : In nl newline_conventions -> ~ In "="%char marks -> ~ In " "%char marks ->
  NoDup (map fst pairs) -> Forall (fun kv => fst kv <> [] /\ plain marks (fst kv) /\ plain marks (snd kv)) pairs ->
  parse_config (markers marks) (text_of nl (map (fun kv => fst kv ++ s " = " ++ snd kv) pairs) []) = Ok pairs.
Proof.
  intros I NE NS ND F.
  assert (FL : Forall one_line (map (fun kv : str * str => fst kv ++ s " = " ++ snd kv) pairs)).
  { rewrite Forall_map. eapply Forall_impl; [|exact F]. intros (k & v) (_ & ((K1 & K2) & _) & ((V1 & V2) & _)). cbn [fst snd] in *.
    split; intros H; apply in_app_or in H as [H|H]; auto; cbn in H; repeat (destruct H as [H|H]; [discriminate|]); auto. }
  unfold parse_config. rewrite C32_lines; [|exact I|exact FL|split; intros []].
  assert (G : forall d, NoDup (map fst (d ++ pairs)) ->
     parse_lines (markers marks) (map (fun kv : str * str => fst kv ++ s " = " ++ snd kv) pairs ++ [[]]) d = Ok (d ++ pairs)).
  { clear ND FL I. induction F as [|(k & v) pairs (NEk & PK & PV) F IH]; intros d ND; cbn [map app parse_lines fst snd]; [cbn; rewrite app_nil_r; reflexivity|].
    cbn [fst snd] in *.
    assert (A : assigns marks (k ++ s " = " ++ v) k v).
    { exists (k ++ [" "%char]), (" "%char :: v). split.
      - exists []. split; [rewrite app_nil_r; cbn; rewrite <- app_assoc; reflexivity|]. split; [|exact I].
        intros c H. destruct PK as (_ & _ & PK). destruct PV as (_ & _ & PV).
        repeat (apply in_app_or in H as [H|H]); cbn in H; try (apply PK, H).
        + destruct H as [<-|[]]. exact NS.
        + destruct H as [<-|[<-|H]]; [exact NE|exact NS|apply PV, H].
      - destruct PK as (_ & SK & PK). destruct PV as (_ & SV & PV).
        split; [intros H; apply in_app_or in H as [H|[H|[]]]; [apply PK in H as (_ & H); congruence|discriminate]|].
        split; [intros [H|H]; [discriminate|apply PV in H as (_ & H); congruence]|].
        split; apply trimmed_iff.
        + rewrite <- (strip_rstrip (k ++ [" "%char])), rstrip_blank; [rewrite strip_rstrip; symmetry; exact SK|constructor; [reflexivity|constructor]].
        + symmetry. exact SV. }
    rewrite (proj2 (proj1 (proj2 (C32_line marks _)) k v) A). cbn [bind].
    rewrite (dict_put_new str_eqb str_decides).
    - rewrite IH; rewrite <- app_assoc; [reflexivity|exact ND].
    - rewrite map_app in ND. cbn [map fst] in ND. apply NoDup_remove_2 in ND. intros H. apply ND, in_or_app. left. exact H. }
  exact (G [] ND).
Qed.
Print Assumptions C32_round_trip.

Example C32_example : parse_config (markers ["#"%char; "!"%char]) (s "# EPREM
simStartTime = 0.0 # days

  flowMag=400 ! km/s
simStartTime = 1.5") = Ok [(s "simStartTime", s "1.5"); (s "flowMag", s "400")].
Proof. vm_compute. reflexivity. Qed.
Example C32_round_trip_example : let pairs := [(s "a b", s "1 2"); (s "c", [])] in
  NoDup (map fst pairs) /\ Forall (fun kv => fst kv <> [] /\ plain ["#"%char] (fst kv) /\ plain ["#"%char] (snd kv)) pairs.
Proof.
  cbn [map fst]. split.
  - constructor; [intros [H|[]]; discriminate|]. constructor; [intros []|constructor].
  - assert (P : forall x, strip x = x -> forallb (fun c => negb (existsb (Ascii.eqb c) ["010"%char; "013"%char; "#"%char; "="%char])) x = true -> plain ["#"%char] x).
    { intros x S H. rewrite forallb_forall in H.
      assert (Q : forall c, In c x -> ~ In c ["010"%char; "013"%char; "#"%char; "="%char]).
      { intros c Hc I. apply H in Hc. apply negb_true_iff in Hc. assert (existsb (Ascii.eqb c) ["010"%char; "013"%char; "#"%char; "="%char] = true) as X; [|congruence].
        apply existsb_exists. exists c. split; [exact I|apply Ascii.eqb_refl]. }
      split; [split; intros I; apply (Q _ I); cbn; auto|]. split; [exact S|]. intros c I.
      split; [intros [<-|[]]; apply (Q _ I); cbn; auto|intros ->; apply (Q _ I); cbn; auto]. }
    constructor; [|constructor; [|constructor]]; cbn [fst snd]; (split; [discriminate|]); split; apply P; reflexivity.
Qed.

(** Blank lines with blanks, and comment lines that are indented, are not
    ignored: the whole file is rejected.  So are values with an equals sign. *)
Theorem C32_blank_and_comment_lines_refuted :
  parse_config (markers ["#"%char]) (s "a = 1
  
b = 2") = Raise ValueError /\
  parse_config (markers ["#"%char]) (s "a = 1
  # comment
b = 2") = Raise ValueError /\
  parse_config (markers ["#"%char]) (s "a = x=1") = Raise ValueError.
Proof. repeat split; vm_compute; reflexivity. Qed.
Print Assumptions C32_blank_and_comment_lines_refuted.
Theorem C32_ignored_blank_refuted marks line : line <> [] -> blank line -> (forall c, In c marks -> is_space c = false) ->
  parse_line (markers marks) line = Raise ValueError.
Proof.
  intros NE B NM. apply (proj2 (proj2 (C32_line marks line))). split; [reflexivity|]. split.
  - destruct line as [|c line]; [congruence|]. cbn. intros I. inversion B as [|? ? H _]; subst. apply NM in I. congruence.
  - intros k v (kt & vt & (t & E & _) & _). unfold blank in B. rewrite E in B. apply Forall_app in B as (B & _). apply Forall_app in B as (_ & B).
    inversion B as [|? ? H _]. discriminate.
Qed.
Print Assumptions C32_ignored_blank_refuted.
(** Markers of several characters: the outcome may depend on the order in which
    the set is traversed. *)
Theorem C32_marker_order_refuted : exists m m' line, Permutation m m' /\ parse_line m line <> parse_line m' line.
Proof.
  exists [s "ab"; s "bc"], [s "bc"; s "ab"], (s "k=abc"). split; [apply perm_swap|]. vm_compute.
  discriminate.
Qed.

(** ** C33 *)
Lemma sort_str_sorted l : NoDup l -> StronglySorted (fun a b => str_ltb a b = true) (sort_by str_ltb l).
Proof.
  induction l as [|x l IH]; intros ND; [constructor|]. change (sort_by str_ltb (x :: l)) with (insert_by str_ltb x (sort_by str_ltb l)).
  inversion ND as [|? ? Hx ND']; subst. specialize (IH ND').
  assert (Hn : forall y, In y (sort_by str_ltb l) -> y <> x) by (intros y Hy ->; apply sort_by_in in Hy; contradiction).
  revert IH Hn. generalize (sort_by str_ltb l) as m. clear.
  induction m as [|y m IHm]; cbn [insert_by]; intros S0 Hn.
  - repeat constructor.
  - destruct (str_ltb y x) eqn:E.
    + inversion S0 as [|? ? S' F]; subst. constructor; [apply IHm; [exact S'|intros z Hz; apply Hn; right; exact Hz]|].
      apply Forall_forall. intros z Hz.
      assert (Hz' : In z (x :: m)) by (eapply Permutation_in; [apply Permutation_sym, (insert_by_perm str_ltb)|exact Hz]).
      destruct Hz' as [<-|Hz']; [exact E|]. rewrite Forall_forall in F. auto.
    + assert (L : str_ltb x y = true).
      { destruct (str_ltb x y) eqn:E2; [reflexivity|]. exfalso. apply (Hn y); [left; reflexivity|]. apply str_ltb_total; assumption. }
      inversion S0 as [|? ? S' F]; subst. constructor; [exact S0|]. constructor; [exact L|]. rewrite Forall_forall in *. intros z Hz.
      eapply str_ltb_trans; [exact L|apply F; exact Hz].
Qed.

(** [diff] of two configurations: the keys of one that the other does not have. *)
Theorem C33_missing a b c : exists df, diff a (DConfig b) c = Ok df /\
  (forall k, In k (keys0 df) <-> In k (map fst a) /\ ~ In k (map fst b)) /\
  (forall k, In k (keys1 df) <-> In k (map fst b) /\ ~ In k (map fst a)) /\
  full0 df = a /\ full1 df = b.
Proof.
  eexists. split; [reflexivity|]. cbn [keys0 keys1 full0 full1]. unfold without_keys.
  assert (G : forall x y k, In k (filter (fun k => negb (mem str_eqb k (map fst y))) (map (@fst str str) x)) <-> In k (map fst x) /\ ~ In k (map (@fst str str) y)).
  { intros x y k. rewrite filter_In, negb_true_iff, (mem_false str_eqb str_decides). reflexivity. }
  split; [intros k; apply G|]. split; [intros k; apply G|]. split; reflexivity.
Qed.
Print Assumptions C33_missing.

(** [compare] lists each parameter of either configuration once, in order, with
    its value in each. *)
Theorem C33_compare a b c : exists l, compare a (DConfig b) c = Ok l /\
  StronglySorted (fun x y => str_ltb x y = true) (map fst l) /\
  (forall k, In k (map fst l) <-> In k (map fst a) \/ In k (map fst b)) /\
  forall k u v, In (k, (u, v)) l -> u = value_or_none a k /\ v = value_or_none b k.
Proof.
  eexists. split; [reflexivity|]. cbn [full0 full1].
  destruct (unique_items_spec str_eqb str_decides (map fst a ++ map fst b)) as (ND & IN & _).
  set (u := unique_items str_eqb _) in *. rewrite map_map. cbn [fst]. rewrite map_id.
  split; [apply sort_str_sorted, ND|]. split.
  - intros k. rewrite sort_by_in, IN, in_app_iff. reflexivity.
  - intros k x y H. apply in_map_iff in H as (k' & E & _). injection E as -> <- <-. split; reflexivity.
Qed.
Print Assumptions C33_compare.

(** A path object works if the markers are given; the result is that of the
    configuration read from it. *)
Theorem C33_path a text cs : diff a (DPath (Ok text)) (Some cs) = (b <- config_parsed cs text ;; diff a (DConfig b) None).
Proof. unfold diff. cbn [diff_other bind]. destruct (config_parsed cs text); reflexivity. Qed.
Print Assumptions C33_path.

(** Neither method reports exactly the differences: [diff] never says that the
    values of a common parameter differ, [compare] also lists the parameters
    that do not differ. *)
Definition differs (a b : list (str * str)) (k : str) : Prop := value_or_none a k <> value_or_none b k.
Theorem C33_exactly_the_differences_refuted :
  (exists a b df k, diff a (DConfig b) None = Ok df /\ differs a b k /\ ~ In k (keys0 df) /\ ~ In k (keys1 df)) /\
  (exists a b l k, compare a (DConfig b) None = Ok l /\ In k (map fst l) /\ ~ differs a b k).
Proof.
  split.
  - exists [(s "x", s "1")], [(s "x", s "2")]. do 2 eexists. split; [reflexivity|]. cbn [keys0 keys1]. split; [|split; intros []].
    instantiate (1 := s "x"). vm_compute. discriminate.
  - exists [(s "x", s "1")], [(s "x", s "1")]. do 2 eexists. split; [vm_compute; reflexivity|]. split; [left; reflexivity|].
    intros H. apply H. reflexivity.
Qed.
Print Assumptions C33_exactly_the_differences_refuted.
(** What can be read off: the differing parameters are exactly the rows of
    [compare] with two different entries. *)
Theorem C33_differences a b l k : compare a (DConfig b) None = Ok l ->
  (differs a b k <-> exists u v, In (k, (u, v)) l /\ u <> v).
Proof.
  intros E. destruct (C33_compare a b None) as (l' & E' & _ & K & V). rewrite E in E'. injection E' as <-.
  assert (N : forall d, ~ In k (map fst d) -> value_or_none d k = None).
  { intros d H. unfold value_or_none. rewrite (proj2 (lookup_missing str_eqb str_decides d k KeyError) (conj eq_refl H)). reflexivity. }
  split.
  - intros D. assert (I : In k (map fst l)).
    { apply K. destruct (in_dec_b str_eqb str_decides k (map fst a)) as [|NA]; [left; assumption|].
      destruct (in_dec_b str_eqb str_decides k (map fst b)) as [|NB]; [right; assumption|]. exfalso. apply D. rewrite (N a NA), (N b NB). reflexivity. }
    apply in_map_iff in I as ((k' & u & v) & Ek & I). cbn in Ek. subst k'. exists u, v. split; [exact I|]. destruct (V _ _ _ I) as (-> & ->). exact D.
  - intros (u & v & I & D). destruct (V _ _ _ I) as (-> & ->). exact D.
Qed.
Print Assumptions C33_differences.
(** Strings are announced as operands but never accepted, and a path without the
    keyword argument is not accepted either. *)
Theorem C33_path_like_refuted a text cs : (exists e, diff a DString cs = Raise e) /\ diff a (DPath (Ok text)) None = Raise TypeError.
Proof. split; [destruct cs; eexists; reflexivity|reflexivity]. Qed.
Print Assumptions C33_path_like_refuted.
Example C33_example : compare [(s "b", s "1"); (s "a", s "0")] (DConfig [(s "c", s "3"); (s "b", s "2")]) None =
  Ok [(s "a", (Some (s "0"), None)); (s "b", (Some (s "1"), Some (s "2"))); (s "c", (None, Some (s "3")))].
Proof. vm_compute. reflexivity. Qed.
