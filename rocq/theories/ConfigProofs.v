(** * Proofs about configuration files *)
From Verif Require Import PyBase PyLemmas ContainerModel ContainerSpec ContainerProofs ContainerProofs2 SymbolicModel SymbolicProofs SymbolicTotal
  ConfigModel ConfigSpec.
From Coq Require Import Permutation Lia.

(** ** blanks *)
Lemma lstrip_split x : exists a, x = a ++ lstrip x /\ blank a /\ match lstrip x with [] => True | c :: _ => is_space c = false end.
Proof.
  induction x as [|c x (a & E & B & H)]; simpl; [exists []; split; [reflexivity|split; [constructor|exact I]]|].
  destruct (is_space c) eqn:S.
  - exists (c :: a). split; [cbn; f_equal; exact E|]. split; [constructor; assumption|exact H].
  - exists []. split; [reflexivity|]. split; [constructor|exact S].
Qed.
Lemma lstrip_blank a x : blank a -> lstrip (a ++ x) = lstrip x.
Proof. induction 1 as [|c a H _ IH]; simpl; [reflexivity|]. rewrite H. exact IH. Qed.
Lemma lstrip_head c x : is_space c = false -> lstrip (c :: x) = c :: x.
Proof. intros H. simpl. rewrite H. reflexivity. Qed.
Lemma lstrip_app_solid x c y : is_space c = false -> lstrip (x ++ c :: y) = lstrip x ++ c :: y.
Proof. intros H. induction x as [|d x IH]; simpl; [rewrite H; reflexivity|]. destruct (is_space d); [exact IH|reflexivity]. Qed.
Lemma blank_rev a : blank a -> blank (rev a).
Proof. intros H. apply Forall_rev, H. Qed.
Lemma blank_app a b : blank a -> blank b -> blank (a ++ b).
Proof. intros. apply Forall_app. auto. Qed.
Lemma rstrip_split x : exists b, x = rstrip x ++ b /\ blank b /\ match rev (rstrip x) with [] => True | c :: _ => is_space c = false end.
Proof.
  unfold rstrip. destruct (lstrip_split (rev x)) as (a & E & B & H). exists (rev a). split.
  - rewrite <- rev_app_distr, <- E. symmetry. apply rev_involutive.
  - split; [apply blank_rev, B|]. rewrite rev_involutive. exact H.
Qed.
Lemma rstrip_app_solid x c y : is_space c = false -> rstrip (x ++ c :: y) = x ++ c :: rstrip y.
Proof.
  intros H. unfold rstrip. rewrite rev_app_distr. cbn [rev]. rewrite <- app_assoc. cbn [app].
  rewrite (lstrip_app_solid (rev y) c (rev x) H). rewrite rev_app_distr. cbn [rev]. rewrite rev_involutive, <- app_assoc. reflexivity.
Qed.
Lemma lstrip_all a : blank a -> lstrip a = [].
Proof. intros H. rewrite <- (app_nil_r a), lstrip_blank by exact H. reflexivity. Qed.
Lemma rstrip_blank a x : blank a -> rstrip (x ++ a) = rstrip x.
Proof. intros H. unfold rstrip. rewrite rev_app_distr, lstrip_blank; [reflexivity|apply blank_rev, H]. Qed.
Lemma lstrip_idem x : lstrip (lstrip x) = lstrip x.
Proof. induction x as [|c x IH]; simpl; [reflexivity|]. destruct (is_space c) eqn:S; [exact IH|]. simpl. rewrite S. reflexivity. Qed.
Lemma rstrip_idem x : rstrip (rstrip x) = rstrip x.
Proof. unfold rstrip. rewrite rev_involutive, lstrip_idem. reflexivity. Qed.

Lemma last_rev (y : str) c d l : rev y = d :: l -> last y c = d.
Proof.
  intros E. assert (y = rev l ++ [d]) as -> by (rewrite <- (rev_involutive y), E; reflexivity). apply last_last.
Qed.
Lemma strip_trimmed x : trimmed x (strip x).
Proof.
  unfold strip. destruct (lstrip_split x) as (a & E & B & H). destruct (rstrip_split (lstrip x)) as (b & E' & B' & H').
  exists a, b. split; [rewrite <- E'; exact E|]. split; [exact B|]. split; [exact B'|].
  destruct (rstrip (lstrip x)) as [|c y] eqn:R.
  - right. cbn in E'. rewrite E' in H. destruct b as [|c b]; [reflexivity|]. inversion B'. congruence.
  - split.
    + rewrite E' in H. exact H.
    + destruct (rev (c :: y)) as [|d l] eqn:V; [apply (f_equal (@length ascii)) in V; rewrite rev_length in V; discriminate|].
      rewrite (last_rev _ c _ _ V). exact H'.
Qed.
Lemma trimmed_strip x y : trimmed x y -> y = strip x.
Proof.
  intros (a & b & -> & A & B & H). unfold strip. rewrite lstrip_blank by exact A. destruct y as [|c y].
  - cbn [app]. rewrite (lstrip_all b B). reflexivity.
  - destruct H as (H1 & H2). cbn [app]. rewrite lstrip_head by exact H1.
    change (c :: y ++ b) with ((c :: y) ++ b). rewrite rstrip_blank by exact B. unfold rstrip.
    destruct (rev (c :: y)) as [|d l] eqn:V; [apply (f_equal (@length ascii)) in V; rewrite rev_length in V; discriminate|].
    rewrite (last_rev _ c _ _ V) in H2. rewrite lstrip_head by exact H2. rewrite <- V, rev_involutive. reflexivity.
Qed.
Lemma trimmed_iff x y : trimmed x y <-> y = strip x.
Proof. split; [apply trimmed_strip|]. intros ->. apply strip_trimmed. Qed.
Lemma strip_lstrip x : strip (lstrip x) = strip x.
Proof. unfold strip. rewrite lstrip_idem. reflexivity. Qed.
Lemma lstrip_blank_end x b : blank b -> lstrip (x ++ b) = [] \/ exists y, lstrip (x ++ b) = y ++ b /\ lstrip x = y.
Proof.
  intros B. induction x as [|c x IH]; cbn [app].
  - left. apply lstrip_all, B.
  - simpl. destruct (is_space c); [exact IH|]. right. exists (c :: x). split; reflexivity.
Qed.
Lemma lstrip_nil_blank x : lstrip x = [] -> blank x.
Proof. intros H. destruct (lstrip_split x) as (a & E & B & _). rewrite H, app_nil_r in E. subst. exact B. Qed.
Lemma strip_rstrip x : strip (rstrip x) = strip x.
Proof.
  destruct (rstrip_split x) as (b & E & B & Z). set (r := rstrip x) in *. clearbody r. subst x. apply trimmed_strip.
  destruct (strip_trimmed r) as (a & b' & E' & A & B' & H). set (y := strip r) in *. clearbody y. subst r.
  destruct y as [|c y].
  - cbn [app] in *. assert (Bl : blank (rev (a ++ b'))) by (apply blank_rev, blank_app; assumption).
    destruct (rev (a ++ b')) as [|d l] eqn:V.
    + apply (f_equal (@rev ascii)) in V. rewrite rev_involutive in V. cbn in V. apply app_eq_nil in V as (-> & ->).
      exists [], b. split; [reflexivity|]. split; [constructor|]. split; [exact B|]. left. reflexivity.
    + inversion Bl. congruence.
  - exists a, (b' ++ b). split; [rewrite <- !app_assoc; reflexivity|]. split; [exact A|]. split; [apply blank_app; assumption|exact H].
Qed.

(** ** splitting at one character *)
Lemma starts_one c x : starts [c] x = match x with d :: _ => Ascii.eqb c d | [] => false end.
Proof. destruct x; simpl; [reflexivity|]. apply andb_true_r. Qed.
Fixpoint before (c : ascii) (x : str) : str :=
  match x with [] => [] | d :: x' => if Ascii.eqb c d then [] else d :: before c x' end.
Fixpoint after (c : ascii) (x : str) : option str :=
  match x with [] => None | d :: x' => if Ascii.eqb c d then Some x' else after c x' end.
Lemma split_char c x : forall acc, split_from [c] 0 acc x =
  match after c x with None => [rev acc ++ x] | Some y => (rev acc ++ before c x) :: split_from [c] 0 [] y end.
Proof.
  induction x as [|d x IH]; intros acc; [simpl; rewrite app_nil_r; reflexivity|].
  cbn [split_from after before]. rewrite starts_one. destruct (Ascii.eqb c d).
  - cbn. rewrite app_nil_r. reflexivity.
  - rewrite IH. cbn [rev]. destruct (after c x); rewrite <- app_assoc; reflexivity.
Qed.
Lemma after_none c x : after c x = None <-> ~ In c x.
Proof.
  induction x as [|d x IH]; simpl; [split; [intros _ []|reflexivity]|]. destruct (Ascii.eqb_spec c d) as [->|N].
  - split; [discriminate|]. intros H. exfalso. apply H. left. reflexivity.
  - rewrite IH. split; [intros H [E|E]; congruence|]. intros H E. apply H. right. exact E.
Qed.
Lemma after_some c x y : after c x = Some y -> x = before c x ++ c :: y /\ ~ In c (before c x).
Proof.
  induction x as [|d x IH]; simpl; [discriminate|]. destruct (Ascii.eqb_spec c d) as [->|N].
  - intros H. injection H as ->. split; [reflexivity|]. intros [].
  - intros H. destruct (IH H) as (E & M). split; [cbn; f_equal; exact E|]. intros [E'|E']; [congruence|contradiction].
Qed.
Lemma after_app c a y : ~ In c a -> after c (a ++ c :: y) = Some y /\ before c (a ++ c :: y) = a.
Proof.
  induction a as [|d a IH]; simpl; intros N; [rewrite Ascii.eqb_refl; split; reflexivity|].
  destruct (Ascii.eqb_spec c d) as [->|M]; [exfalso; apply N; left; reflexivity|].
  destruct IH as (E & F); [intros H; apply N; right; exact H|]. split; [exact E|f_equal; exact F].
Qed.
Lemma before_none c x : ~ In c x -> before c x = x.
Proof.
  induction x as [|d x IH]; simpl; intros N; [reflexivity|]. destruct (Ascii.eqb_spec c d) as [->|M]; [exfalso; apply N; left; reflexivity|].
  f_equal. apply IH. intros H. apply N. right. exact H.
Qed.
Lemma split_one c x : split [c] x = Ok match after c x with None => [x] | Some y => before c x :: split_from [c] 0 [] y end.
Proof. unfold split. f_equal. rewrite split_char. destruct (after c x); reflexivity. Qed.
(** two parts *)
Lemma split_two c x k v : split [c] x = Ok [k; v] <-> x = k ++ c :: v /\ ~ In c k /\ ~ In c v.
Proof.
  rewrite split_one. split.
  - intros H. injection H as H. destruct (after c x) as [y|] eqn:A; [|discriminate].
    injection H as E1 E2. rewrite split_char in E2. destruct (after c y) as [z|] eqn:A'; [rewrite (split_char c z []) in E2; destruct (after c z); discriminate|].
    injection E2 as <-. apply after_some in A as (E & N). rewrite E1 in *. split; [exact E|]. split; [exact N|]. apply after_none, A'.
  - intros (-> & N & M). destruct (after_app c k v N) as (A & B). rewrite A, B, split_char, (proj2 (after_none c v) M). reflexivity.
Qed.

(** ** comments *)
Section Marks.
Variable marks : list ascii.
Let cs := map (fun c : ascii => [c]) marks.
Definition is_mark (c : ascii) : bool := existsb (Ascii.eqb c) marks.
Lemma is_mark_spec c : is_mark c = true <-> In c marks.
Proof.
  unfold is_mark. rewrite existsb_exists. split; [intros (x & H & E); apply Ascii.eqb_eq in E; subst; exact H|].
  intros H. exists c. split; [exact H|apply Ascii.eqb_refl].
Qed.
Lemma mark_in c : mem str_eqb [c] cs = is_mark c.
Proof.
  apply Bool.eq_iff_eq_true. rewrite (mem_spec str_eqb str_decides), is_mark_spec. unfold cs. rewrite in_map_iff. split.
  - intros (x & E & H). injection E as ->. exact H.
  - intros H. exists c. split; [reflexivity|exact H].
Qed.
End Marks.
Fixpoint upto (f : ascii -> bool) (x : str) : str :=
  match x with [] => [] | c :: x' => if f c then [] else c :: upto f x' end.
Lemma upto_before c x : before c x = upto (Ascii.eqb c) x.
Proof. induction x as [|d x IH]; simpl; [reflexivity|]. rewrite IH. reflexivity. Qed.
Lemma upto_upto f g x : upto f (upto g x) = upto (fun c => g c || f c) x.
Proof. induction x as [|c x IH]; simpl; [reflexivity|]. destruct (g c); [reflexivity|]. simpl. destruct (f c); [reflexivity|]. f_equal. exact IH. Qed.
Lemma upto_ext f g x : (forall c, f c = g c) -> upto f x = upto g x.
Proof. intros H. induction x as [|c x IH]; simpl; [reflexivity|]. rewrite H, IH. reflexivity. Qed.
Lemma upto_false x : upto (fun _ => false) x = x.
Proof. induction x as [|c x IH]; simpl; [reflexivity|]. f_equal. exact IH. Qed.
Lemma cut_marks marks : forall x, cut_comments (map (fun c : ascii => [c]) marks) x = Ok (upto (is_mark marks) x).
Proof.
  induction marks as [|c marks IH]; intros x; cbn [map cut_comments].
  - f_equal. symmetry. apply (upto_false x).
  - rewrite split_one. cbn [bind]. replace (hd [] _) with (before c x).
    + rewrite IH, upto_before, upto_upto. f_equal. apply upto_ext. intros d. unfold is_mark. cbn [existsb]. rewrite (Ascii.eqb_sym c d). reflexivity.
    + destruct (after c x) eqn:A; [reflexivity|]. cbn. apply before_none, after_none, A.
Qed.
Lemma upto_code marks x : code_of marks x (upto (is_mark marks) x).
Proof.
  induction x as [|c x (t & E & N & T)]; simpl; [exists []; split; [reflexivity|split; [intros _ []|exact I]]|].
  destruct (is_mark marks c) eqn:M.
  - exists (c :: x). split; [reflexivity|]. split; [intros _ []|]. apply is_mark_spec, M.
  - exists t. split; [cbn; f_equal; exact E|]. split; [|exact T]. intros d [<-|H]; [|apply N, H].
    rewrite <- is_mark_spec, M. discriminate.
Qed.
Lemma code_upto marks x y : code_of marks x y -> y = upto (is_mark marks) x.
Proof.
  intros (t & -> & N & T). induction y as [|c y IH]; cbn [app upto].
  - destruct t as [|c t]; [reflexivity|]. cbn [upto]. apply is_mark_spec in T. rewrite T. reflexivity.
  - assert (is_mark marks c = false) as ->.
    { destruct (is_mark marks c) eqn:M; [|reflexivity]. apply is_mark_spec in M. exfalso. apply (N c); [left; reflexivity|exact M]. }
    f_equal. apply IH. intros d H. apply N. right. exact H.
Qed.
Lemma code_iff marks x y : code_of marks x y <-> y = upto (is_mark marks) x.
Proof. split; [apply code_upto|]. intros ->. apply upto_code. Qed.
Lemma strip_marks marks x : strip_inline_comments x (map (fun c : ascii => [c]) marks) = Ok (strip (upto (is_mark marks) x)).
Proof. unfold strip_inline_comments. rewrite cut_marks. reflexivity. Qed.

(** ** lines *)
Lemma strip_equals kt vt : strip (kt ++ "="%char :: vt) = lstrip kt ++ "="%char :: rstrip vt.
Proof. unfold strip. rewrite lstrip_app_solid, rstrip_app_solid by reflexivity. reflexivity. Qed.
Lemma in_lstrip c x : In c (lstrip x) -> In c x.
Proof. induction x as [|d x IH]; simpl; [auto|]. destruct (is_space d); [auto|]. auto. Qed.
Lemma in_rstrip c x : In c (rstrip x) -> In c x.
Proof. unfold rstrip. rewrite <- in_rev. intros H. apply in_lstrip in H. apply in_rev, H. Qed.
Lemma in_strip c x : In c (strip x) -> In c x.
Proof. intros H. apply in_lstrip, in_rstrip, H. Qed.
Lemma solid_lstrip c x : In c x -> is_space c = false -> In c (lstrip x).
Proof. induction x as [|d x IH]; simpl; [auto|]. intros [->|H] S; [rewrite S; left; reflexivity|]. destruct (is_space d); [auto|right; exact H]. Qed.
Lemma solid_rstrip c x : In c x -> is_space c = false -> In c (rstrip x).
Proof. intros H S. unfold rstrip. apply -> in_rev. apply solid_lstrip; [apply -> in_rev; exact H|exact S]. Qed.
Lemma strip_two code k v : strip code = k ++ "="%char :: v -> ~ In "="%char k -> ~ In "="%char v ->
  exists kt vt, code = kt ++ "="%char :: vt /\ ~ In "="%char kt /\ ~ In "="%char vt /\ k = lstrip kt /\ v = rstrip vt.
Proof.
  intros E NK NV. destruct (after "="%char code) as [vt|] eqn:A.
  - apply after_some in A as (EC & N). set (kt := before "="%char code) in *. exists kt, vt.
    rewrite EC, strip_equals in E.
    assert (NK' : ~ In "="%char (lstrip kt)) by (intros H; apply N, in_lstrip, H).
    destruct (after_app "="%char k v NK) as (A1 & B1). destruct (after_app "="%char (lstrip kt) (rstrip vt) NK') as (A2 & B2).
    rewrite E in A2, B2. rewrite A1 in A2. rewrite B1 in B2. injection A2 as ->.
    split; [exact EC|]. split; [exact N|]. split; [|split; [exact B2|reflexivity]].
    intros H. apply NV, solid_rstrip; [exact H|reflexivity].
  - apply after_none in A. exfalso. apply A. apply in_strip. rewrite E. apply in_or_app. right. left. reflexivity.
Qed.
Definition parsed_line (marks : list ascii) (line : str) : result (option (str * str)) := parse_line (map (fun c : ascii => [c]) marks) line.
Lemma parse_line_spec marks line : match parsed_line marks line with
  | Ok None => ignored marks line
  | Ok (Some (k, v)) => ~ ignored marks line /\ assigns marks line k v
  | Raise e => e = ValueError /\ ~ ignored marks line /\ forall k v, ~ assigns marks line k v
  end.
Proof.
  unfold parsed_line, parse_line. destruct line as [|c line]; [exact I|]. rewrite mark_in. destruct (is_mark marks c) eqn:M.
  - cbn. apply is_mark_spec, M.
  - assert (NI : ~ ignored marks (c :: line)) by (cbn; rewrite <- is_mark_spec, M; discriminate).
    rewrite strip_marks. cbn [bind]. set (code := upto (is_mark marks) (c :: line)).
    assert (G : forall k v, split (s "=") (strip code) = Ok [k; v] <->
              exists kt vt, code = kt ++ "="%char :: vt /\ ~ In "="%char kt /\ ~ In "="%char vt /\ k = lstrip kt /\ v = rstrip vt).
    { intros k v. change (s "=") with ["="%char]. rewrite split_two. split.
      - intros (E & NK & NV). apply strip_two; assumption.
      - intros (kt & vt & E & NK & NV & -> & ->). rewrite E, strip_equals. split; [reflexivity|].
        split; intros H; [apply NK, in_lstrip, H|apply NV, in_rstrip, H]. }
    destruct (split (s "=") (strip code)) as [[|k [|v [|? ?]]]|e] eqn:S; cbn [bind].
    1,2,4: (split; [reflexivity|]; split; [exact NI|]; intros k' v' (kt & vt & C & NK & NV & TK & TV); apply code_upto in C; fold code in C;
            pose proof (proj2 (G (lstrip kt) (rstrip vt)) (ex_intro _ kt (ex_intro _ vt (conj (eq_sym C) (conj NK (conj NV (conj eq_refl eq_refl))))))) as X; discriminate).
    + split; [exact NI|]. destruct (proj1 (G k v) eq_refl) as (kt & vt & C & NK & NV & -> & ->). exists kt, vt.
      split; [apply code_iff; symmetry; exact C|]. split; [exact NK|]. split; [exact NV|].
      rewrite strip_lstrip, strip_rstrip. split; apply strip_trimmed.
    + exfalso. change (s "=") with ["="%char] in S. rewrite split_one in S. discriminate.
Qed.
Lemma assigns_functional marks line k v k' v' : assigns marks line k v -> assigns marks line k' v' -> k = k' /\ v = v'.
Proof.
  intros (kt & vt & C & NK & NV & TK & TV) (kt' & vt' & C' & NK' & NV' & TK' & TV').
  apply code_upto in C. apply code_upto in C'. rewrite <- C in C'.
  destruct (after_app "="%char kt vt NK) as (A1 & B1). destruct (after_app "="%char kt' vt' NK') as (A2 & B2).
  rewrite C' in A2, B2. rewrite A1 in A2. rewrite B1 in B2. injection A2 as <-. subst kt'.
  apply trimmed_strip in TK, TV, TK', TV'. subst. split; reflexivity.
Qed.
Lemma ignored_not_assigns marks line k v : ignored marks line -> ~ assigns marks line k v.
Proof.
  intros I (kt & vt & (t & E & N & _) & _). destruct line as [|c line]; [destruct kt; discriminate|]. cbn in I.
  assert (c :: line = (kt ++ "="%char :: vt) ++ t) as E' by exact E. destruct kt as [|d kt]; cbn in E'; injection E' as Ec _; subst c;
    eapply N; try exact I; left; reflexivity.
Qed.

(** ** files *)
Lemma dict_put_nodup {V} (d : list (str * V)) k v : NoDup (map fst d) -> NoDup (map fst (dict_put str_eqb d k v)).
Proof.
  induction d as [|[h w] d IH]; simpl; intros ND; [constructor; [intros []|constructor]|].
  inversion ND as [|? ? N ND']; subst. destruct (str_eqb h k) eqn:E; simpl; [constructor; assumption|].
  constructor; [|apply IH, ND']. intros H. apply (dict_put_keys str_eqb str_decides) in H as [H|H]; [contradiction|].
  subst. rewrite str_eqb_refl in E. discriminate.
Qed.
Section File.
Variable marks : list ascii.
Let cs := map (fun c : ascii => [c]) marks.
Lemma line_cases line : (parse_line cs line = Ok None /\ ignored marks line) \/
  (exists k v, parse_line cs line = Ok (Some (k, v)) /\ assigns marks line k v) \/
  (parse_line cs line = Raise ValueError /\ ~ ignored marks line /\ forall k v, ~ assigns marks line k v).
Proof.
  pose proof (parse_line_spec marks line) as H. unfold parsed_line in H. fold cs in H.
  destruct (parse_line cs line) as [[[k v]|]|e].
  - right. left. exists k, v. split; [reflexivity|apply H].
  - left. split; [reflexivity|exact H].
  - right. right. destruct H as (-> & H). split; [reflexivity|exact H].
Qed.
Lemma parse_lines_error lines : forall d e, parse_lines cs lines d = Raise e ->
  e = ValueError /\ exists l, In l lines /\ ~ ignored marks l /\ forall k v, ~ assigns marks l k v.
Proof.
  induction lines as [|l lines IH]; intros d e; cbn [parse_lines]; [discriminate|].
  destruct (line_cases l) as [(-> & _)|[(k & v & -> & _)|(-> & B)]]; cbn [bind].
  - intros H. destruct (IH _ _ H) as (-> & l' & I & B). split; [reflexivity|]. exists l'. split; [right; exact I|exact B].
  - intros H. destruct (IH _ _ H) as (-> & l' & I & B). split; [reflexivity|]. exists l'. split; [right; exact I|exact B].
  - intros H. injection H as <-. split; [reflexivity|]. exists l. split; [left; reflexivity|exact B].
Qed.
Lemma parse_lines_ok lines : forall d d', parse_lines cs lines d = Ok d' -> NoDup (map fst d) ->
  NoDup (map fst d') /\ Forall (fun l => ignored marks l \/ exists k v, assigns marks l k v) lines /\
  forall k v, lookup str_eqb d' k = Ok v <->
    last_assigned marks lines k v \/ (lookup str_eqb d k = Ok v /\ forall l w, In l lines -> ~ assigns marks l k w).
Proof.
  induction lines as [|l lines IH]; intros d d'; cbn [parse_lines].
  - intros H ND. injection H as <-. split; [exact ND|]. split; [constructor|]. intros k v. split.
    + intros H. right. split; [exact H|]. intros l w [].
    + intros [(b & x & a & E & _)|[H _]]; [destruct b; discriminate|exact H].
  - destruct (line_cases l) as [(-> & I)|[(k & v & -> & A)|(-> & B)]]; cbn [bind]; [| |discriminate].
    + intros H ND. destruct (IH _ _ H ND) as (ND' & F & G). split; [exact ND'|]. split; [constructor; [left; exact I|exact F]|].
      intros k v. rewrite G. split.
      * intros [(b & x & a & -> & A & L)|[E N]].
        -- left. exists (l :: b), x, a. split; [reflexivity|split; assumption].
        -- right. split; [exact E|]. intros l' w [<-|H']; [apply ignored_not_assigns, I|apply N, H'].
      * intros [(b & x & a & E & A & L)|[E N]].
        -- left. destruct b as [|y b]; cbn in E; injection E as -> E; [exfalso; exact (ignored_not_assigns _ _ _ _ I A)|].
           exists b, x, a. split; [exact E|split; assumption].
        -- right. split; [exact E|]. intros l' w H'. apply N. right. exact H'.
    + intros H ND.
      assert (ND1 : NoDup (map fst (dict_put str_eqb d k v))).
      { apply dict_put_nodup, ND. }
      destruct (IH _ _ H ND1) as (ND' & F & G). split; [exact ND'|].
      split; [constructor; [right; exists k, v; exact A|exact F]|].
      intros k' v'. rewrite G, (dict_put_get str_eqb str_decides). split.
      * intros [(b & x & a & -> & A' & L)|[E N]].
        -- left. exists (l :: b), x, a. split; [reflexivity|split; assumption].
        -- destruct (str_eqb k k') eqn:Q.
           ++ apply str_eqb_eq in Q. subst k'. injection E as <-. left. exists [], l, lines. split; [reflexivity|]. split; [exact A|exact N].
           ++ right. split; [exact E|]. intros l' w [<-|H']; [|apply N, H'].
              intros A'. destruct (assigns_functional _ _ _ _ _ _ A A') as (-> & _). rewrite str_eqb_refl in Q. discriminate.
      * intros [(b & x & a & E & A' & L)|[E N]].
        -- destruct b as [|y b]; cbn in E; injection E as -> E.
           ++ subst a. destruct (assigns_functional _ _ _ _ _ _ A A') as (-> & ->). right. rewrite str_eqb_refl.
              split; [reflexivity|exact L].
           ++ left. exists b, x, a. split; [exact E|split; assumption].
        -- right. destruct (str_eqb k k') eqn:Q.
           ++ apply str_eqb_eq in Q. subst k'. exfalso. apply (N l v); [left; reflexivity|exact A].
           ++ split; [exact E|]. intros l' w H'. apply N. right. exact H'.
Qed.
Lemma parse_lines_total lines : forall d, Forall (fun l => ignored marks l \/ exists k v, assigns marks l k v) lines ->
  exists d', parse_lines cs lines d = Ok d'.
Proof.
  intros d F. destruct (parse_lines cs lines d) as [d'|e] eqn:E; [exists d'; reflexivity|].
  apply parse_lines_error in E as (_ & l & I & N & B). rewrite Forall_forall in F. destruct (F l I) as [H|(k & v & H)]; [contradiction|].
  exfalso. exact (B k v H).
Qed.
End File.
