(** Proofs about the readers of EPREM source files. *)
From Verif Require Import PyBase PyLemmas ContainerModel ContainerProofs ContainerProofs2 SymbolicModel SymbolicSpec SymbolicRegex ConfigModel ConfigSpec ConfigProofs
  ParameterModel SourceModel SourceSpec.

(** ** characters *)
Lemma ascii_all (P : ascii -> bool) : forallb P (map ascii_of_nat (seq 0 256)) = true -> forall c, P c = true.
Proof.
  intros H c. rewrite forallb_forall in H. apply H. rewrite <- (ascii_nat_embedding c). apply in_map, in_seq.
  pose proof (nat_ascii_bounded c). lia.
Qed.
Definition inb (cs : str) (c : ascii) : bool := existsb (Ascii.eqb c) cs.
Lemma inb_in cs c : inb cs c = true <-> In c cs.
Proof.
  unfold inb. rewrite existsb_exists. split.
  - intros (d & I & E). apply Ascii.eqb_eq in E. subst. exact I.
  - intros I. exists c. split; [exact I|apply Ascii.eqb_refl].
Qed.
Lemma class_is (f : ascii -> bool) cs : forallb (fun c => Bool.eqb (f c) (inb cs c)) (map ascii_of_nat (seq 0 256)) = true -> forall c, f c = true <-> In c cs.
Proof.
  intros H c. pose proof (ascii_all (fun c => Bool.eqb (f c) (inb cs c)) H c) as E. cbv beta in E. apply Bool.eqb_prop in E. rewrite E. apply inb_in.
Qed.
Lemma word_class c : is_word c = true <-> In c (ascii_word ++ latin_word).
Proof. apply class_is. vm_compute. reflexivity. Qed.
Lemma digit_class c : is_digit c = true <-> In c (s "0123456789").
Proof. apply class_is. vm_compute. reflexivity. Qed.
Lemma const_class c : is_const c = true <-> In c (s "ABCDEFGHIJKLMNOPQRSTUVWXYZ0123456789_").
Proof. apply class_is. vm_compute. reflexivity. Qed.
Lemma value_class c : is_value c = true <-> In c (s "-+.*/()" ++ ascii_word ++ latin_word) \/ is_space c = true.
Proof.
  assert (H : forall c, Bool.eqb (is_value c) (inb (s "-+.*/()" ++ ascii_word ++ latin_word) c || is_space c) = true) by (apply ascii_all; vm_compute; reflexivity).
  specialize (H c). apply Bool.eqb_prop in H. rewrite H, orb_true_iff, inb_in. reflexivity.
Qed.
Lemma blank_quote_class c : is_blank_quote c = true <-> In c (s " " ++ quote).
Proof. apply class_is. vm_compute. reflexivity. Qed.
Lemma class_forall (f : ascii -> bool) cs x : (forall c, f c = true <-> In c cs) -> (Forall (fun c => f c = true) x <-> one_of cs x).
Proof. intros H. unfold one_of. split; intros F; (eapply Forall_impl; [|exact F]); intros c; apply H. Qed.
Lemma word_iff x : Forall (fun c => is_word c = true) x <-> word x.
Proof. apply class_forall, word_class. Qed.
Lemma digits_iff x : Forall (fun c => is_digit c = true) x <-> digits_of x.
Proof. apply class_forall, digit_class. Qed.
(** blanks are no word characters *)
Lemma space_not_word c : is_space c = true -> is_word c = false.
Proof. intros H. assert (E : forall c, negb (is_space c && is_word c) = true) by (apply ascii_all; vm_compute; reflexivity). specialize (E c). rewrite H in E. destruct (is_word c); [discriminate E|reflexivity]. Qed.
Lemma space_not_const c : is_space c = true -> is_const c = false.
Proof. intros H. assert (E : forall c, negb (is_space c && is_const c) = true) by (apply ascii_all; vm_compute; reflexivity). specialize (E c). rewrite H in E. destruct (is_const c); [discriminate E|reflexivity]. Qed.

(** ** patterns, as relations *)
Lemma in_star f x a y : In (a, y) (p_star f x) <-> x = a ++ y /\ Forall (fun c => f c = true) a.
Proof.
  revert a. induction x as [|c x IH]; intros a; cbn [p_star].
  - split; [intros [H|[]]; injection H as <- <-; auto|]. intros (E & F). symmetry in E. apply app_eq_nil in E as (-> & ->). left. reflexivity.
  - destruct (f c) eqn:C.
    + rewrite in_app_iff, in_map_iff. split.
      * intros [((a' & y') & E & I)|[E|[]]].
        -- cbn in E. injection E as <- <-. apply IH in I as (-> & F). split; [reflexivity|constructor; assumption].
        -- injection E as <- <-. auto.
      * intros (E & F). destruct a as [|d a]; cbn in E; [subst y; right; left; reflexivity|]. injection E as <- E. inversion F; subst.
        left. exists (a, y). split; [reflexivity|]. apply IH. auto.
    + split; [intros [H|[]]; injection H as <- <-; auto|]. intros (E & F). destruct a as [|d a]; cbn in E; [subst y; left; reflexivity|].
      injection E as <- E. inversion F; subst. congruence.
Qed.
Lemma in_lazystar f x a y : In (a, y) (p_lazystar f x) <-> x = a ++ y /\ Forall (fun c => f c = true) a.
Proof.
  revert a. induction x as [|c x IH]; intros a; cbn [p_lazystar].
  - split; [intros [H|[]]; injection H as <- <-; auto|]. intros (E & F). symmetry in E. apply app_eq_nil in E as (-> & ->). left. reflexivity.
  - split.
    + intros [E|H]; [injection E as <- <-; auto|]. destruct (f c) eqn:C; [|contradiction].
      apply in_map_iff in H as ((a' & y') & E & I). cbn in E. injection E as <- <-. apply IH in I as (-> & F). split; [reflexivity|constructor; assumption].
    + intros (E & F). destruct a as [|d a]; cbn in E; [subst y; left; reflexivity|]. injection E as <- E. inversion F as [|? ? Fc Fa]; subst.
      right. rewrite Fc. apply in_map_iff. exists (a, y). split; [reflexivity|]. apply IH. auto.
Qed.
Lemma in_chr f x a y : In (a, y) (p_chr f x) <-> exists c, a = [c] /\ x = c :: y /\ f c = true.
Proof.
  destruct x as [|c x]; cbn [p_chr].
  - split; [intros []|]. intros (c & _ & E & _). discriminate.
  - destruct (f c) eqn:C.
    + split; [intros [H|[]]; injection H as <- <-; exists c; auto|]. intros (d & -> & E & _). injection E as <- <-. left. reflexivity.
    + split; [intros []|]. intros (d & -> & E & F). injection E as <- <-. congruence.
Qed.
Lemma in_seq_pat p q x a y : In (a, y) (p_seq p q x) <-> exists a1 a2 z, In (a1, z) (p x) /\ In (a2, y) (q z) /\ a = a1 ++ a2.
Proof.
  unfold p_seq. rewrite in_flat_map. split.
  - intros ((a1 & z) & I & H). apply in_map_iff in H as ((a2 & y') & E & H). cbn in E, H. injection E as <- <-. exists a1, a2, z. auto.
  - intros (a1 & a2 & z & I & H & ->). exists (a1, z). split; [exact I|]. apply in_map_iff. exists (a2, y). split; [reflexivity|exact H].
Qed.
Lemma in_plus f x a y : In (a, y) (p_plus f x) <-> x = a ++ y /\ Forall (fun c => f c = true) a /\ a <> [].
Proof.
  unfold p_plus. rewrite in_seq_pat. split.
  - intros (a1 & a2 & z & I & H & ->). apply in_chr in I as (c & -> & -> & C). apply in_star in H as (-> & F). split; [reflexivity|]. split; [constructor; assumption|discriminate].
  - intros (-> & F & N). destruct a as [|c a]; [contradiction|]. inversion F; subst. exists [c], a, (a ++ y).
    split; [apply in_chr; exists c; auto|]. split; [apply in_star; auto|reflexivity].
Qed.
Lemma starts_iff t x : starts t x = true <-> exists y, x = t ++ y.
Proof.
  revert x. induction t as [|c t IH]; intros x; cbn [starts app].
  - split; [intros _; exists x; reflexivity|reflexivity].
  - destruct x as [|d x]; [split; [discriminate|intros (y & E); discriminate]|]. rewrite andb_true_iff, IH, Ascii.eqb_eq. split.
    + intros (<- & y & ->). exists y. reflexivity.
    + intros (y & E). injection E as <- ->. eauto.
Qed.
Lemma in_text t x a y : In (a, y) (p_text t x) <-> a = t /\ x = t ++ y.
Proof.
  unfold p_text. destruct (starts t x) eqn:S.
  - apply starts_iff in S as (z & ->). rewrite skipn_app, skipn_all, Nat.sub_diag. cbn [app skipn].
    split; [intros [H|[]]; injection H as <- <-; auto|]. intros (-> & E). apply app_inv_head in E as ->. left. reflexivity.
  - split; [intros []|]. intros (_ & ->). rewrite (proj2 (starts_iff t (t ++ y))) in S by eauto. discriminate.
Qed.
Lemma in_alt p q x m : In m (p_alt p q x) <-> In m (p x) \/ In m (q x).
Proof. apply in_app_iff. Qed.
Lemma in_opt p x a y : In (a, y) (p_opt p x) <-> In (a, y) (p x) \/ (a = [] /\ y = x).
Proof. unfold p_opt. rewrite in_alt. cbn. split; (intros [H|H]; [left; exact H|right]); [destruct H as [H|[]]; injection H as <- <-; auto|destruct H as (-> & ->); auto]. Qed.
Lemma in_then {A} p (k : str -> str -> list A) x r : In r (p_then p k x) <-> exists a y, In (a, y) (p x) /\ In r (k a y).
Proof.
  unfold p_then. rewrite in_flat_map. split.
  - intros ((a & y) & I & H). exists a, y. auto.
  - intros (a & y & I & H). exists (a, y). auto.
Qed.
Lemma in_end {A} (r t : A) x : In t (p_end r x) <-> x = [] /\ t = r.
Proof. destruct x; cbn; split; [intros [<-|[]]; auto|intros (_ & ->); auto|intros []|intros (E & _); discriminate]. Qed.

(** ** unique splits *)
Lemma span_unique (f : ascii -> bool) a b x y : Forall (fun c => f c = true) a -> Forall (fun c => f c = true) b ->
  nothead f x = true -> nothead f y = true -> a ++ x = b ++ y -> a = b /\ x = y.
Proof.
  intros FA. revert b. induction FA as [|c a C FA IH]; intros b FB NX NY E.
  - destruct FB as [|d b D FB]; [auto|]. cbn in E. subst x. cbn in NX. rewrite D in NX. discriminate.
  - destruct FB as [|d b D FB]; cbn in E.
    + subst y. cbn in NY. rewrite C in NY. discriminate.
    + injection E as <- E. destruct (IH b FB NX NY E) as (-> & ->). auto.
Qed.
(** a text without blanks around it *)
Lemma strip_tight x : tight x -> forall a d, blank a -> blank d -> strip (a ++ x ++ d) = x.
Proof.
  intros T a d A D. symmetry. apply trimmed_strip. exists a, d. split; [reflexivity|]. split; [exact A|]. split; [exact D|].
  destruct x; [contradiction|exact T].
Qed.
Lemma strip_form x : strip x = [] \/ tight (strip x).
Proof. destruct (strip_trimmed x) as (a & b & _ & _ & _ & H). destruct (strip x); [left; reflexivity|right; exact H]. Qed.
Lemma tight_app c x y d : is_space c = false -> is_space d = false -> tight (c :: x ++ y ++ [d]).
Proof. intros C D. cbn [tight]. split; [exact C|]. rewrite app_assoc. change (c :: (x ++ y) ++ [d]) with ((c :: x ++ y) ++ [d]). rewrite last_last. exact D. Qed.

(** ** constants *)
Lemma hd_then {A} p (k : str -> str -> list A) x a y r : hd_error (p x) = Some (a, y) -> hd_error (k a y) = Some r -> hd_error (p_then p k x) = Some r.
Proof.
  unfold p_then. destruct (p x) as [|[a' y'] l]; cbn; [discriminate|]. intros E H. injection E as -> ->.
  destruct (k a y); cbn in *; [discriminate|exact H].
Qed.
Lemma text_hd t y : hd_error (p_text t (t ++ y)) = Some (t, y).
Proof.
  unfold p_text. rewrite (proj2 (starts_iff t (t ++ y))) by eauto. rewrite skipn_app, skipn_all, Nat.sub_diag. reflexivity.
Qed.
Lemma plus_hd' f a k : some a -> Forall (fun c => f c = true) a -> nothead f k = true -> hd_error (p_plus f (a ++ k)) = Some (a, k).
Proof. intros N F K. destruct a as [|d a]; [contradiction|]. inversion F; subst. apply plus_hd; assumption. Qed.
Lemma define_in x n v : In (n, v) (re_define x) -> exists b c, x = s "#define" ++ b ++ n ++ c ++ v /\
  (blank b /\ some b) /\ (blank c /\ some c) /\ (Forall (fun c => is_const c = true) n /\ some n) /\ Forall (fun c => is_value c = true) v /\ some v.
Proof.
  unfold re_define. intros H. apply in_then in H as (a1 & y1 & H1 & H). apply in_text in H1 as (-> & ->).
  apply in_then in H as (b & y2 & H2 & H). apply in_plus in H2 as (-> & B & NB).
  apply in_then in H as (n' & y3 & H3 & H). apply in_plus in H3 as (-> & F & NN).
  apply in_then in H as (c & y4 & H4 & H). apply in_plus in H4 as (-> & C & NC).
  apply in_then in H as (v' & y5 & H5 & H). apply in_plus in H5 as (-> & V & NV).
  apply in_end in H as (-> & E). injection E as <- <-. rewrite app_nil_r. exists b, c. repeat (split; [reflexivity || (split; assumption) || assumption|]). exact NV.
Qed.
Lemma nothead_app f x y : some x -> nothead f x = true -> nothead f (x ++ y) = true.
Proof. destruct x; [intros []; reflexivity|auto]. Qed.
Lemma nothead_blank f x : (forall c, is_space c = true -> f c = false) -> blank x -> nothead f x = true.
Proof. intros H B. destruct B as [|c x C B]; [reflexivity|]. cbn. rewrite (H c C). reflexivity. Qed.
Lemma nothead_class f g x : (forall c, g c = true -> f c = false) -> Forall (fun c => g c = true) x -> nothead f x = true.
Proof. intros H F. destruct F as [|c x C F]; [reflexivity|]. cbn. rewrite (H c C). reflexivity. Qed.
Lemma const_not_space c : is_const c = true -> is_space c = false.
Proof. intros H. destruct (is_space c) eqn:E; [|reflexivity]. rewrite (space_not_const c E) in H. discriminate. Qed.
Lemma word_not_space c : is_word c = true -> is_space c = false.
Proof. intros H. destruct (is_space c) eqn:E; [|reflexivity]. rewrite (space_not_word c E) in H. discriminate. Qed.
Lemma tight_nothead v : tight v -> nothead is_space v = true /\ some v.
Proof. destruct v as [|c v]; [intros []|]. intros (C & _). cbn. rewrite C. split; [reflexivity|discriminate]. Qed.
Lemma last_app_some (x y : str) c : some y -> last (x ++ y) c = last y c.
Proof.
  intros N. destruct (exists_last N) as (z & d & ->). rewrite app_assoc, !last_last. reflexivity.
Qed.
Lemma last_any (x : str) c d : some x -> last x c = last x d.
Proof. intros N. destruct (exists_last N) as (z & e & ->). rewrite !last_last. reflexivity. Qed.
Lemma tight_last v d : tight v -> is_space (last v d) = false.
Proof. destruct v as [|c v]; [intros []|]. intros (_ & L). rewrite (last_any _ d c) by discriminate. exact L. Qed.
(** a text that begins and ends solidly *)
Lemma tight_ends c x y : is_space c = false -> tight y -> tight (c :: x ++ y).
Proof.
  intros C T. split; [exact C|]. change (c :: x ++ y) with ((c :: x) ++ y). rewrite last_app_some by apply (tight_nothead y T). apply tight_last, T.
Qed.
Lemma define_hd b n c v : blank b -> some b -> blank c -> some c -> Forall (fun c => is_const c = true) n -> some n ->
  Forall (fun c => is_value c = true) v -> tight v -> hd_error (re_define (s "#define" ++ b ++ n ++ c ++ v)) = Some (n, v).
Proof.
  intros B NB C NC F NN V T. destruct (tight_nothead v T) as (TV & NV). unfold re_define.
  eapply hd_then; [apply text_hd|]. eapply hd_then; [apply plus_hd'; [exact NB|exact B|]|].
  { apply nothead_app; [exact NN|]. apply (nothead_class _ _ _ const_not_space F). }
  eapply hd_then; [apply plus_hd'; [exact NN|exact F|]|]. { apply nothead_app; [exact NC|]. apply nothead_blank; [apply space_not_const|exact C]. }
  eapply hd_then; [apply plus_hd'; [exact NC|exact C|exact TV]|].
  apply (hd_then _ _ _ v []); [|reflexivity]. replace v with (v ++ []) at 1 by apply app_nil_r. apply plus_hd'; [exact NV|exact V|reflexivity].
Qed.
Lemma hd_in {A} (l : list A) a : hd_error l = Some a -> In a l.
Proof. destruct l; [discriminate|]. cbn. intros E. injection E as ->. left. reflexivity. Qed.
Lemma constant_iff line n v : define_match line = Some (n, v) <-> constant_line line n v.
Proof.
  unfold define_match. split.
  - intros H. pose proof (define_in _ _ _ (hd_in _ _ H)) as (b & c & E & (B & NB) & (C & NC) & (F & NN) & V & NV).
    destruct (strip_trimmed line) as (a & d & EL & A & D & T).
    assert (TS : tight (strip line)) by (rewrite E in T |- *; exact T). clear T.
    destruct (lstrip_split v) as (w & EV & W & HV).
    assert (TV : tight (lstrip v)).
    { destruct (lstrip v) as [|h t] eqn:LV.
      - exfalso. rewrite app_nil_r in EV. subst w. rewrite E in TS. pose proof (tight_last _ " "%char TS) as L. rewrite !app_assoc, last_app_some in L by exact NV.
        destruct (exists_last NV) as (z & e & ->). rewrite last_last in L. apply Forall_app in W as (_ & W). inversion W. congruence.
      - split; [exact HV|]. rewrite E in TS. pose proof (tight_last _ h TS) as L. rewrite !app_assoc, last_app_some in L by exact NV.
        rewrite EV, last_app_some in L by discriminate. exact L. }
    assert (Hv : hd_error (re_define (strip line)) = Some (n, lstrip v)).
    { rewrite E. replace (c ++ v) with ((c ++ w) ++ lstrip v) by (rewrite <- app_assoc, <- EV; reflexivity).
      apply define_hd; try assumption; [apply blank_app; assumption|destruct c; [contradiction|discriminate]|].
      rewrite EV in V. apply Forall_app in V as (_ & V). exact V. }
    rewrite H in Hv. injection Hv as Hv. rewrite <- Hv in TV.
    exists a, b, c, d. split; [rewrite EL at 1; rewrite E, !app_assoc; reflexivity|]. split; [exact A|]. split; [split; assumption|]. split; [split; assumption|]. split; [exact D|].
    split; [split; [exact NN|]|split; [|exact TV]].
    + eapply Forall_impl; [|exact F]. intros x. apply const_class.
    + eapply Forall_impl; [|exact V]. intros x. apply value_class.
  - intros (a & b & c & d & -> & A & (B & NB) & (C & NC) & D & (NN & F) & V & T).
    replace (a ++ s "#define" ++ b ++ n ++ c ++ v ++ d) with (a ++ (s "#define" ++ b ++ n ++ c ++ v) ++ d) by (rewrite <- !app_assoc; reflexivity).
    rewrite strip_tight; [|change (s "#define") with ("#"%char :: s "define"); cbn [app]; rewrite !app_assoc; apply tight_ends; [reflexivity|exact T]|exact A|exact D].
    apply define_hd; try assumption.
    + eapply Forall_impl; [|exact F]. intros x. apply const_class.
    + eapply Forall_impl; [|exact V]. intros x. apply value_class.
Qed.

(** ** calls *)
Definition call_core (t b c k : str) (r : reader) (key d args : str) : str :=
  t ++ b ++ s "=" ++ c ++ k ++ reader_text r ++ s "(" ++ quote ++ key ++ quote ++ d ++ s "," ++ args ++ s ");".
Definition call_parts (t b c k : str) (r : reader) (key d args : str) : Prop :=
  target t /\ blank b /\ blank c /\ cast_text k /\ word key /\ blank d /\ ~ In "010"%char args.
Lemma not_newline_iff x : Forall (fun c => not_newline c = true) x <-> ~ In "010"%char x.
Proof.
  rewrite Forall_forall. split.
  - intros H I. specialize (H _ I). discriminate.
  - intros N c I. unfold not_newline, newline. destruct (Ascii.eqb_spec c "010"%char) as [->|]; [contradiction|reflexivity].
Qed.
Lemma in_mode m x y : In (m, y) (re_mode x) <-> exists r, m = reader_text r /\ x = m ++ y.
Proof.
  unfold re_mode. rewrite in_seq_pat. split.
  - intros (a1 & a2 & z & H1 & H2 & ->). apply in_text in H1 as (-> & ->). rewrite !in_alt, !in_text in H2.
    destruct H2 as [(-> & ->)|[(-> & ->)|[(-> & ->)|(-> & ->)]]];
      [exists ReadInt|exists ReadDouble|exists ReadArray|exists ReadString]; split; reflexivity.
  - intros (r & -> & ->). exists (s "read"), (skipn 4 (reader_text r)), (skipn 4 (reader_text r) ++ y).
    split; [apply in_text; destruct r; split; reflexivity|]. split; [|destruct r; reflexivity].
    rewrite !in_alt, !in_text. destruct r; [left|right; left|right; right; right|right; right; left]; split; reflexivity.
Qed.
Lemma in_target x t y : (exists a1 a2 z, In (a1, z) (p_opt (p_text (s "config.")) x) /\ In (a2, y) (p_plus is_word z) /\ t = a1 ++ a2) <-> target t /\ x = t ++ y.
Proof.
  split.
  - intros (a1 & a2 & z & H1 & H2 & ->). apply in_opt in H1. apply in_plus in H2 as (-> & F & N). apply word_iff in F.
    destruct H1 as [H1|(-> & <-)].
    + apply in_text in H1 as (-> & ->). split; [exists a2; auto|apply app_assoc].
    + split; [exists a2; auto|reflexivity].
  - intros ((w & N & F & [->| ->]) & ->).
    + exists [], w, (w ++ y). split; [apply in_opt; right; auto|]. split; [|reflexivity]. apply in_plus. rewrite word_iff. auto.
    + exists (s "config."), w, (w ++ y). split; [apply in_opt; left; apply in_text; split; [reflexivity|symmetry; apply app_assoc]|]. split; [|reflexivity]. apply in_plus. rewrite word_iff. auto.
Qed.
Lemma call_in x o : In o (re_call x) -> exists a t b c k r key d args e,
  x = a ++ call_core t b c k r key d args ++ e /\ call_parts t b c k r key d args /\ blank a /\ blank e /\ o = mkcall (reader_text r) (quote ++ key ++ quote) args.
Proof.
  unfold re_call. intros H. apply in_then in H as (a & y1 & H1 & H). apply in_star in H1 as (-> & A).
  apply in_then in H as (t1 & y2 & H2 & H). apply in_then in H as (t2 & y3 & H3 & H).
  destruct (proj1 (in_target y1 (t1 ++ t2) y3)) as (T & ->); [eauto 8|].
  apply in_then in H as (b & y4 & H4 & H). apply in_star in H4 as (-> & B).
  apply in_then in H as (q1 & y5 & H5 & H). apply in_text in H5 as (-> & ->).
  apply in_then in H as (c & y6 & H6 & H). apply in_star in H6 as (-> & C).
  apply in_then in H as (k & y7 & H7 & H). assert (K : cast_text k /\ y6 = k ++ y7).
  { apply in_opt in H7 as [H7|(-> & ->)]; [apply in_text in H7 as (-> & ->); split; [right|]; reflexivity|split; [left|]; reflexivity]. }
  destruct K as (K & ->). clear H7.
  apply in_then in H as (m & y8 & H8 & H). apply in_mode in H8 as (r & -> & ->).
  apply in_then in H as (q2 & y9 & H9 & H). apply in_text in H9 as (-> & ->).
  apply in_then in H as (key & y10 & H10 & H).
  apply in_seq_pat in H10 as (q3 & kq & z & H10 & H11 & ->). apply in_text in H10 as (-> & ->).
  apply in_seq_pat in H11 as (ky & q4 & z' & H11 & H12 & ->). apply in_text in H12 as (-> & ->). apply in_star in H11 as (-> & KY).
  apply in_then in H as (d & y11 & H13 & H). apply in_star in H13 as (-> & D).
  apply in_then in H as (q5 & y12 & H14 & H). apply in_text in H14 as (-> & ->).
  apply in_then in H as (args & y13 & H15 & H). apply in_lazystar in H15 as (-> & AR).
  apply in_then in H as (q6 & y14 & H16 & H). apply in_text in H16 as (-> & ->).
  apply in_then in H as (q7 & y15 & H17 & H). apply in_text in H17 as (-> & ->).
  apply in_then in H as (e & y16 & H18 & H). apply in_star in H18 as (-> & E).
  apply in_end in H as (-> & ->). apply not_newline_iff in AR. apply word_iff in KY.
  exists a, (t1 ++ t2), b, c, k, r, ky, d, args, e. split; [|split; [unfold call_parts; auto 12|auto]].
  unfold call_core. rewrite app_nil_r. rewrite <- !app_assoc. reflexivity.
Qed.
Lemma call_found t b c k r key d args : call_parts t b c k r key d args ->
  In (mkcall (reader_text r) (quote ++ key ++ quote) args) (re_call (call_core t b c k r key d args)).
Proof.
  intros (T & B & C & K & KY & D & AR). unfold re_call, call_core. apply in_then. eexists [], _. split; [apply in_star; split; [reflexivity|constructor]|].
  destruct (proj2 (in_target (t ++ b ++ s "=" ++ c ++ k ++ reader_text r ++ s "(" ++ quote ++ key ++ quote ++ d ++ s "," ++ args ++ s ");") t _) (conj T eq_refl)) as (t1 & t2 & z & H1 & H2 & _).
  apply in_then. exists t1, z. split; [exact H1|]. apply in_then. eexists t2, _. split; [exact H2|]. clear H1 H2.
  apply in_then. eexists b, _. split; [apply in_star; split; [reflexivity|exact B]|].
  apply in_then. eexists _, _. split; [apply in_text; split; reflexivity|].
  apply in_then. eexists c, _. split; [apply in_star; split; [reflexivity|exact C]|].
  apply in_then. eexists k, (reader_text r ++ _). split.
  { apply in_opt. destruct K as [->| ->]; [right; split; reflexivity|left; apply in_text; split; reflexivity]. }
  apply in_then. eexists _, _. split; [apply in_mode; exists r; split; reflexivity|].
  apply in_then. eexists _, _. split; [apply in_text; split; reflexivity|].
  apply in_then. eexists (quote ++ key ++ quote), _. split.
  { apply in_seq_pat. eexists quote, (key ++ quote), _. split; [apply in_text; split; reflexivity|]. split; [|reflexivity].
    apply in_seq_pat. eexists key, quote, _. split; [apply in_star; split; [reflexivity|apply word_iff, KY]|]. split; [apply in_text; split; reflexivity|reflexivity]. }
  apply in_then. eexists d, _. split; [apply in_star; split; [reflexivity|exact D]|].
  apply in_then. eexists _, _. split; [apply in_text; split; reflexivity|].
  apply in_then. eexists args, _. split; [apply in_lazystar; split; [reflexivity|apply not_newline_iff, AR]|].
  apply in_then. eexists _, _. split; [apply in_text; split; reflexivity|].
  apply in_then. eexists _, _. split; [apply in_text; split; reflexivity|].
  apply in_then. exists [], []. split; [apply in_star; split; [reflexivity|constructor]|]. apply in_end. auto.
Qed.
Definition is_target (c : ascii) : bool := is_word c || Ascii.eqb c ".".
Lemma word_is_target x : word x -> Forall (fun c => is_target c = true) x.
Proof. intros W. apply word_iff in W. eapply Forall_impl; [|exact W]. intros c H. unfold is_target. rewrite H. reflexivity. Qed.
Lemma target_chars t : target t -> Forall (fun c => is_target c = true) t.
Proof. intros (w & _ & W & [->| ->]); [apply word_is_target, W|]. apply Forall_app. split; [repeat constructor|apply word_is_target, W]. Qed.
Lemma space_not_target c : is_space c = true -> is_target c = false.
Proof. intros H. unfold is_target. rewrite (space_not_word c H). destruct (Ascii.eqb_spec c "."%char) as [->|]; [discriminate H|reflexivity]. Qed.
Lemma nothead_blank_then f b c y : (forall c, is_space c = true -> f c = false) -> blank b -> f c = false -> nothead f (b ++ c :: y) = true.
Proof. intros H B C. destruct B as [|h b Hh B]; cbn; [rewrite C|rewrite (H h Hh)]; reflexivity. Qed.
Lemma reader_word r : Forall (fun c => is_word c = true) (reader_text r).
Proof. destruct r; repeat constructor. Qed.
Lemma reader_inj r r' : reader_text r = reader_text r' -> r = r'.
Proof. destruct r, r'; intros H; try reflexivity; discriminate H. Qed.
Lemma call_unique t b c k r key d args t' b' c' k' r' key' d' args' :
  call_parts t b c k r key d args -> call_parts t' b' c' k' r' key' d' args' ->
  call_core t b c k r key d args = call_core t' b' c' k' r' key' d' args' -> r = r' /\ key = key' /\ args = args'.
Proof.
  intros (T & B & C & K & KY & D & _) (T' & B' & C' & K' & KY' & D' & _) E. unfold call_core in E.
  apply (span_unique is_target) in E as (_ & E); [|apply target_chars, T|apply target_chars, T'|apply nothead_blank_then; [exact space_not_target|assumption|reflexivity]..].
  apply (span_unique is_space) in E as (_ & E); [|assumption|assumption|reflexivity|reflexivity].
  apply app_inv_head in E.
  apply (span_unique is_space) in E as (_ & E); [|assumption|assumption|destruct K as [->| ->], r; reflexivity|destruct K' as [->| ->], r'; reflexivity].
  assert (E' : reader_text r ++ s "(" ++ quote ++ key ++ quote ++ d ++ s "," ++ args ++ s ");" = reader_text r' ++ s "(" ++ quote ++ key' ++ quote ++ d' ++ s "," ++ args' ++ s ");").
  { destruct K as [->| ->], K' as [->| ->]; [exact E|destruct r; discriminate E|destruct r'; discriminate E|]. apply app_inv_head in E. exact E. }
  clear E. apply (span_unique is_word) in E' as (R & E); [|apply reader_word|apply reader_word|reflexivity|reflexivity].
  apply reader_inj in R. apply app_inv_head in E. apply app_inv_head in E.
  apply (span_unique is_word) in E as (-> & E); [|apply word_iff, KY|apply word_iff, KY'|reflexivity|reflexivity].
  apply app_inv_head in E.
  apply (span_unique is_space) in E as (_ & E); [|assumption|assumption|reflexivity|reflexivity].
  apply app_inv_head in E. apply app_inv_tail in E. auto.
Qed.
Lemma target_head t : target t -> exists c x, t = c :: x /\ is_space c = false.
Proof.
  intros (w & N & W & [->| ->]); [|cbn; eauto]. destruct w as [|c w]; [contradiction|]. apply word_iff in W. inversion W; subst.
  exists c, w. split; [reflexivity|apply word_not_space; assumption].
Qed.
Lemma call_tight t b c k r key d args : target t -> tight (call_core t b c k r key d args).
Proof.
  intros T. destruct (target_head t T) as (h & x & -> & H). unfold call_core. cbn [app].
  assert (E : forall u v w z : str, x ++ u ++ s "=" ++ v ++ w ++ reader_text r ++ s "(" ++ quote ++ key ++ quote ++ z ++ s "," ++ args ++ s ");" =
    (x ++ u ++ s "=" ++ v ++ w ++ reader_text r ++ s "(" ++ quote ++ key ++ quote ++ z ++ s "," ++ args) ++ s ");") by (intros; rewrite <- !app_assoc; reflexivity).
  change (tight (h :: (x ++ b ++ s "=" ++ c ++ k ++ reader_text r ++ s "(" ++ quote ++ key ++ quote ++ d ++ s "," ++ args ++ s ");"))).
  rewrite E. apply tight_ends; [exact H|split; reflexivity].
Qed.
Lemma strip_idem x : strip (strip x) = strip x.
Proof.
  destruct (strip_form x) as [->|T]; [reflexivity|]. pose proof (strip_tight _ T [] [] ltac:(constructor) ltac:(constructor)) as H.
  cbn [app] in H. rewrite app_nil_r in H. exact H.
Qed.
Lemma call_iff line r key args : call_match line = Some (mkcall (reader_text r) (quote ++ key ++ quote) args) <-> call_line line r key args.
Proof.
  unfold call_match. split.
  - intros H. apply hd_in in H. apply call_in in H as (a & t & b & c & k & r' & key' & d & args' & e & E & P & A & EE & O).
    injection O as R KK ->. apply reader_inj in R as ->. apply app_inv_tail in KK as ->.
    assert (SL : strip line = call_core t b c k r' key' d args').
    { rewrite <- (strip_idem line), E. apply strip_tight; [apply call_tight, P|exact A|exact EE]. }
    destruct (strip_trimmed line) as (a0 & e0 & EL & A0 & E0 & _). rewrite SL in EL. destruct P as (T & B & C & K & KY & D & AR).
    exists a0, t, b, c, k, d, e0. split; [rewrite EL; unfold call_core; rewrite <- !app_assoc; reflexivity|auto 12].
  - intros (a & t & b & c & k & d & e & -> & A & T & B & C & K & KY & D & AR & E).
    assert (P : call_parts t b c k r key d args) by (unfold call_parts; auto 12).
    replace (strip _) with (call_core t b c k r key d args).
    2: { symmetry. etransitivity; [|exact (strip_tight _ (call_tight t b c k r key d args T) a e A E)]. f_equal. unfold call_core. rewrite <- !app_assoc. reflexivity. }
    pose proof (call_found _ _ _ _ _ _ _ _ P) as I. destruct (re_call (call_core t b c k r key d args)) as [|o l] eqn:R; [contradiction|]. cbn.
    assert (J : In o (re_call (call_core t b c k r key d args))) by (rewrite R; left; reflexivity).
    apply call_in in J as (a1 & t1 & b1 & c1 & k1 & r1 & key1 & d1 & args1 & e1 & EQ & P1 & A1 & E1 & ->).
    apply (f_equal strip) in EQ. rewrite strip_tight in EQ by (try assumption; apply call_tight, P1).
    pose proof (strip_tight _ (call_tight t b c k r key d args T) [] [] ltac:(constructor) ltac:(constructor)) as S0. cbn [app] in S0. rewrite app_nil_r in S0. rewrite S0 in EQ.
    destruct (call_unique _ _ _ _ _ _ _ _ _ _ _ _ _ _ _ _ P P1 EQ) as (-> & -> & ->). reflexivity.
Qed.
Lemma call_shape line o : call_match line = Some o -> exists r key args, o = mkcall (reader_text r) (quote ++ key ++ quote) args.
Proof. unfold call_match. intros H. apply hd_in, call_in in H as (a & t & b & c & k & r & key & d & args & e & _ & _ & _ & _ & ->). eauto. Qed.

(** ** arguments *)
Section Strip.
Variable f : ascii -> bool.
Lemma lstrip_chars_split x : exists a, x = a ++ lstrip_chars f x /\ Forall (fun c => f c = true) a /\ match lstrip_chars f x with [] => True | c :: _ => f c = false end.
Proof.
  induction x as [|c x (a & E & F & H)]; cbn [lstrip_chars]; [exists []; auto|]. destruct (f c) eqn:C.
  - exists (c :: a). split; [cbn; rewrite <- E; reflexivity|]. split; [constructor; assumption|exact H].
  - exists []. auto.
Qed.
Lemma lstrip_chars_app a x : Forall (fun c => f c = true) a -> lstrip_chars f (a ++ x) = lstrip_chars f x.
Proof. induction 1 as [|c a C F IH]; cbn; [reflexivity|]. rewrite C. exact IH. Qed.
Lemma lstrip_chars_head c x : f c = false -> lstrip_chars f (c :: x) = c :: x.
Proof. cbn. intros ->. reflexivity. Qed.
Definition peeled (x y : str) : Prop := exists a b, x = a ++ y ++ b /\ Forall (fun c => f c = true) a /\ Forall (fun c => f c = true) b /\
  match y with [] => a = [] \/ b = [] | c :: _ => f c = false /\ f (last y c) = false end.
Lemma strip_chars_peeled x : peeled x (strip_chars f x).
Proof.
  unfold strip_chars. destruct (lstrip_chars_split x) as (a & E & A & H). destruct (lstrip_chars_split (rev (lstrip_chars f x))) as (b & E' & B & H').
  set (z := lstrip_chars f (rev (lstrip_chars f x))) in *. exists a, (rev b).
  apply (f_equal (@rev ascii)) in E'. rewrite rev_involutive, rev_app_distr in E'.
  split; [rewrite <- E'; exact E|]. split; [exact A|]. split; [apply Forall_rev, B|].
  destruct (rev z) as [|c y] eqn:R.
  - right. assert (z = []) as Z by (rewrite <- (rev_involutive z), R; reflexivity). cbn in E'. rewrite E' in H.
    destruct b as [|d b]; [reflexivity|]. exfalso. destruct (rev (d :: b)) as [|h t] eqn:RB; [apply (f_equal (@length ascii)) in RB; rewrite rev_length in RB; discriminate|].
    assert (I : In h (d :: b)) by (rewrite in_rev, RB; left; reflexivity). rewrite Forall_forall in B. rewrite (B h I) in H. discriminate.
  - split.
    + rewrite E' in H. exact H.
    + destruct z as [|d l]; [discriminate|]. rewrite (last_rev (c :: y) c d l); [exact H'|]. rewrite <- R, rev_involutive. reflexivity.
Qed.
Lemma peeled_strip_chars x y : peeled x y -> strip_chars f x = y.
Proof.
  intros (a & b & -> & A & B & H). unfold strip_chars. rewrite lstrip_chars_app by exact A. destruct y as [|c y].
  - cbn [app]. rewrite <- (app_nil_r b), lstrip_chars_app by exact B. reflexivity.
  - destruct H as (H1 & H2). cbn [app]. rewrite lstrip_chars_head by exact H1. change (c :: y ++ b) with ((c :: y) ++ b). rewrite rev_app_distr.
    rewrite lstrip_chars_app by (apply Forall_rev, B). destruct (rev (c :: y)) as [|d l] eqn:V; [apply (f_equal (@length ascii)) in V; rewrite rev_length in V; discriminate|].
    rewrite (last_rev _ c _ _ V) in H2. rewrite lstrip_chars_head by exact H2. rewrite <- V, rev_involutive. reflexivity.
Qed.
End Strip.
Lemma bare_iff x y : bare x y <-> y = strip_chars is_blank_quote x.
Proof.
  assert (P : bare x y <-> peeled is_blank_quote x y).
  { unfold bare, peeled. split; intros (a & b & E & A & B & H); exists a, b; (split; [exact E|]); (split; [apply (class_forall _ _ _ blank_quote_class), A|]);
      (split; [apply (class_forall _ _ _ blank_quote_class), B|]); destruct y as [|c y]; try exact H; destruct H as (H1 & H2); split.
    - destruct (is_blank_quote c) eqn:Q; [apply blank_quote_class in Q; contradiction|reflexivity].
    - destruct (is_blank_quote (last (c :: y) c)) eqn:Q; [apply blank_quote_class in Q; contradiction|reflexivity].
    - intros Q. apply blank_quote_class in Q. congruence.
    - intros Q. apply blank_quote_class in Q. congruence. }
  rewrite P. split; [intros H; symmetry; apply peeled_strip_chars, H|intros ->; apply strip_chars_peeled].
Qed.
Lemma word_key key : word key -> strip_chars is_blank_quote (quote ++ key ++ quote) = key.
Proof.
  intros W. apply word_iff in W. apply peeled_strip_chars. destruct key as [|c k].
  - exists (quote ++ quote), []. split; [reflexivity|]. split; [repeat constructor|]. split; [constructor|right; reflexivity].
  - exists quote, quote. split; [reflexivity|]. split; [repeat constructor|]. split; [repeat constructor|].
    assert (H : forall d, In d (c :: k) -> is_blank_quote d = false).
    { intros d I. rewrite Forall_forall in W. specialize (W d I). destruct (is_blank_quote d) eqn:Q; [|reflexivity].
      apply blank_quote_class in Q as [<-|[<-|[]]]; discriminate W. }
    split; [apply H; left; reflexivity|apply H]. destruct (exists_last (l := c :: k) ltac:(discriminate)) as (z & e & E). rewrite E, last_last. apply in_or_app. right. left. reflexivity.
Qed.
Lemma split_commas items : items <> [] -> Forall (fun i => ~ In ","%char i) items -> split_from (s ",") 0 [] (commas items) = items.
Proof.
  intros N F. induction F as [|i items NI F IH]; [contradiction|]. change (s ",") with [","%char]. rewrite split_char. cbn [commas].
  destruct items as [|j items].
  - rewrite (proj2 (after_none _ _) NI). reflexivity.
  - change (i ++ s "," ++ commas (j :: items)) with (i ++ ","%char :: commas (j :: items)). destruct (after_app ","%char i (commas (j :: items)) NI) as (-> & ->).
    cbn [rev app]. f_equal. apply IH. discriminate.
Qed.
Lemma split_joined x : exists items, items <> [] /\ Forall (fun i => ~ In ","%char i) items /\ x = commas items.
Proof.
  remember (length x) as n eqn:L. revert x L. induction n as [n IH] using lt_wf_ind. intros x L.
  destruct (after ","%char x) as [y|] eqn:A.
  - apply after_some in A as (E & N). destruct (IH (length y)) with (x := y) as (items & NI & F & EY); [|reflexivity|].
    { subst n. rewrite E, app_length. cbn. lia. }
    exists (before ","%char x :: items). split; [discriminate|]. split; [constructor; assumption|]. destruct items as [|j items]; [contradiction|].
    cbn [commas]. rewrite E at 1. rewrite EY. reflexivity.
  - exists [x]. split; [discriminate|]. split; [constructor; [apply after_none, A|constructor]|reflexivity].
Qed.
Lemma keys_of r : argument_keys (reader_text r) = attribute_names r.
Proof. destruct r; reflexivity. Qed.
Lemma Forall2_bare items values : Forall2 bare items values <-> values = map (strip_chars is_blank_quote) items.
Proof.
  split.
  - induction 1 as [|i v items values B F IH]; [reflexivity|]. apply bare_iff in B. cbn. congruence.
  - intros ->. induction items; constructor; [apply bare_iff; reflexivity|assumption].
Qed.
Definition parsed_call (line : str) : option (str * list (str * str)) := option_map call_parse (call_match line).
Lemma parameter_iff line key attrs : parsed_call line = Some (key, attrs) <-> parameter_line line key attrs.
Proof.
  unfold parsed_call. split.
  - destruct (call_match line) as [o|] eqn:M; [|discriminate]. cbn [option_map]. unfold call_parse. intros E. injection E as <- <-.
    destruct (call_shape line o M) as (r & key & args & ->). apply call_iff in M. cbn [ckey cmode cargs].
    destruct (split_joined args) as (items & N & F & ->). rewrite split_commas by assumption. rewrite keys_of.
    destruct M as (a & t & b & c & k & d & e & EL & A & T & B & C & K & KY & D & AR & EE) eqn:EM. clear EM.
    rewrite word_key by exact KY. exists r, items, (map (strip_chars is_blank_quote) items).
    split; [exists a, t, b, c, k, d, e; auto 15|]. split; [exact N|]. split; [exact F|]. split; [apply Forall2_bare; reflexivity|reflexivity].
  - intros (r & items & values & L & N & F & V & ->). apply Forall2_bare in V as ->.
    assert (KY : word key) by (destruct L as (a & t & b & c & k & d & e & EL & A & T & B & C & K & KY & _); exact KY).
    apply call_iff in L. rewrite L. cbn [option_map]. unfold call_parse. cbn [ckey cmode cargs]. rewrite split_commas by assumption. rewrite keys_of, word_key by exact KY. reflexivity.
Qed.

(** ** arrays *)
Definition array_core (b name size c d value : str) : str :=
  s "Scalar_t" ++ b ++ name ++ s "[" ++ size ++ s "]" ++ c ++ s "=" ++ d ++ s "{" ++ value ++ s "};".
Definition array_parts (b name size c d value : str) : Prop :=
  blank b /\ (some name /\ word name) /\ (some size /\ digits_of size) /\ blank c /\ blank d /\ element value.
Lemma in_element x v y : In (v, y) (p_alt re_number re_member x) <-> element v /\ x = v ++ y.
Proof.
  rewrite in_alt. unfold re_number, re_member. rewrite !in_seq_pat. split.
  - intros [(a1 & a2 & z & H1 & H2 & ->)|H].
    + apply in_star in H1 as (-> & D1). apply digits_iff in D1. apply in_opt in H2 as [H2|(-> & <-)].
      * apply in_seq_pat in H2 as (b1 & b2 & w & H2 & H3 & ->). apply in_text in H2 as (-> & ->). apply in_plus in H3 as (-> & D2 & N). apply digits_iff in D2.
        split; [right; left; exists a1, b2; auto|rewrite <- !app_assoc; reflexivity].
      * rewrite app_nil_r. split; [left; exact D1|reflexivity].
    + apply in_target in H as (T & ->). split; [right; right; exact T|reflexivity].
  - intros ([D|[(i & f & D1 & N & D2 & ->)|T]] & ->).
    + left. exists v, [], y. split; [apply in_star; rewrite digits_iff; auto|]. split; [apply in_opt; right; auto|symmetry; apply app_nil_r].
    + left. exists i, (s "." ++ f), ((s "." ++ f) ++ y). split; [apply in_star; rewrite digits_iff, <- app_assoc; auto|]. split; [|reflexivity].
      apply in_opt. left. apply in_seq_pat. exists (s "."), f, (f ++ y). split; [apply in_text; auto|]. split; [apply in_plus; rewrite digits_iff; auto|reflexivity].
    + right. apply in_target. auto.
Qed.
Lemma array_in x o : In o (re_array x) -> exists a b name size c d value e,
  x = a ++ array_core b name size c d value ++ e /\ array_parts b name size c d value /\ blank a /\ blank e /\ o = mkarray name size value.
Proof.
  unfold re_array. intros H. apply in_then in H as (a & y1 & H1 & H). apply in_star in H1 as (-> & A).
  apply in_then in H as (q1 & y2 & H2 & H). apply in_text in H2 as (-> & ->).
  apply in_then in H as (b & y3 & H3 & H). apply in_star in H3 as (-> & B).
  apply in_then in H as (name & y4 & H4 & H). apply in_plus in H4 as (-> & W & NW).
  apply in_then in H as (q2 & y5 & H5 & H). apply in_text in H5 as (-> & ->).
  apply in_then in H as (size & y6 & H6 & H). apply in_plus in H6 as (-> & S0 & NS).
  apply in_then in H as (q3 & y7 & H7 & H). apply in_text in H7 as (-> & ->).
  apply in_then in H as (c & y8 & H8 & H). apply in_star in H8 as (-> & C).
  apply in_then in H as (q4 & y9 & H9 & H). apply in_text in H9 as (-> & ->).
  apply in_then in H as (d & y10 & H10 & H). apply in_star in H10 as (-> & D).
  apply in_then in H as (q5 & y11 & H11 & H). apply in_text in H11 as (-> & ->).
  apply in_then in H as (v & y12 & H12 & H). apply in_element in H12 as (V & ->).
  apply in_then in H as (q6 & y13 & H13 & H). apply in_text in H13 as (-> & ->).
  apply in_then in H as (q7 & y14 & H14 & H). apply in_text in H14 as (-> & ->).
  apply in_then in H as (e & y15 & H15 & H). apply in_star in H15 as (-> & E).
  apply in_end in H as (-> & ->). apply word_iff in W. apply digits_iff in S0.
  exists a, b, name, size, c, d, v, e. split; [|split; [unfold array_parts, some; auto 12|auto]].
  unfold array_core. rewrite app_nil_r. rewrite <- !app_assoc. reflexivity.
Qed.
Lemma array_found b name size c d value : array_parts b name size c d value -> In (mkarray name size value) (re_array (array_core b name size c d value)).
Proof.
  intros (B & (NW & W) & (NS & S0) & C & D & V). unfold re_array, array_core. apply in_then. eexists [], _. split; [apply in_star; split; [reflexivity|constructor]|].
  apply in_then. eexists _, _. split; [apply in_text; split; reflexivity|].
  apply in_then. eexists b, _. split; [apply in_star; split; [reflexivity|exact B]|].
  apply in_then. eexists name, _. split; [apply in_plus; split; [reflexivity|split; [apply word_iff, W|exact NW]]|].
  apply in_then. eexists _, _. split; [apply in_text; split; reflexivity|].
  apply in_then. eexists size, _. split; [apply in_plus; split; [reflexivity|split; [apply digits_iff, S0|exact NS]]|].
  apply in_then. eexists _, _. split; [apply in_text; split; reflexivity|].
  apply in_then. eexists c, _. split; [apply in_star; split; [reflexivity|exact C]|].
  apply in_then. eexists _, _. split; [apply in_text; split; reflexivity|].
  apply in_then. eexists d, _. split; [apply in_star; split; [reflexivity|exact D]|].
  apply in_then. eexists _, _. split; [apply in_text; split; reflexivity|].
  apply in_then. eexists value, _. split; [apply in_element; split; [exact V|reflexivity]|].
  apply in_then. eexists _, _. split; [apply in_text; split; reflexivity|].
  apply in_then. eexists _, _. split; [apply in_text; split; reflexivity|].
  apply in_then. exists [], []. split; [apply in_star; split; [reflexivity|constructor]|]. apply in_end. auto.
Qed.
Lemma digit_not_bracket c : is_digit c = true -> is_word c = true.
Proof. unfold is_word. intros ->. destruct (is_alpha c); reflexivity. Qed.
Lemma array_unique b name size c d value b' name' size' c' d' value' : array_parts b name size c d value -> array_parts b' name' size' c' d' value' ->
  array_core b name size c d value = array_core b' name' size' c' d' value' -> name = name' /\ size = size' /\ value = value'.
Proof.
  intros (B & (NW & W) & (NS & S0) & C & D & V) (B' & (NW' & W') & (NS' & S0') & C' & D' & V') E. unfold array_core in E. apply app_inv_head in E.
  apply word_iff in W, W'. apply digits_iff in S0, S0'.
  assert (HW : forall w y, some w -> Forall (fun c => is_word c = true) w -> nothead is_space (w ++ y) = true).
  { intros w y N F. apply nothead_app; [exact N|]. apply (nothead_class _ _ _ word_not_space F). }
  apply (span_unique is_space) in E as (_ & E); [|assumption|assumption|apply HW; assumption..].
  apply (span_unique is_word) in E as (-> & E); [|assumption|assumption|reflexivity|reflexivity]. apply app_inv_head in E.
  apply (span_unique is_digit) in E as (-> & E); [|assumption|assumption|reflexivity|reflexivity]. apply app_inv_head in E.
  apply (span_unique is_space) in E as (_ & E); [|assumption|assumption|reflexivity|reflexivity]. apply app_inv_head in E.
  apply (span_unique is_space) in E as (_ & E); [|assumption|assumption|reflexivity|reflexivity]. apply app_inv_head in E.
  apply app_inv_tail in E. auto.
Qed.
Lemma array_tight b name size c d value : tight (array_core b name size c d value).
Proof.
  unfold array_core. change (s "Scalar_t") with ("S"%char :: s "calar_t"). cbn [app].
  assert (E : s "calar_t" ++ b ++ name ++ s "[" ++ size ++ s "]" ++ c ++ s "=" ++ d ++ s "{" ++ value ++ s "};" =
    (s "calar_t" ++ b ++ name ++ s "[" ++ size ++ s "]" ++ c ++ s "=" ++ d ++ s "{" ++ value) ++ s "};") by (rewrite <- !app_assoc; reflexivity).
  change (tight ("S"%char :: (s "calar_t" ++ b ++ name ++ s "[" ++ size ++ s "]" ++ c ++ s "=" ++ d ++ s "{" ++ value ++ s "};"))).
  rewrite E. apply tight_ends; [reflexivity|split; reflexivity].
Qed.
Lemma array_iff line name size value : array_match line = Some (mkarray name size value) <-> array_line line name size value.
Proof.
  unfold array_match. split.
  - intros H. apply hd_in in H. apply array_in in H as (a & b & n' & s' & c & d & v' & e & E & P & A & EE & O). injection O as <- <- <-.
    assert (SL : strip line = array_core b name size c d value).
    { rewrite <- (strip_idem line), E. apply strip_tight; [apply array_tight|exact A|exact EE]. }
    destruct (strip_trimmed line) as (a0 & e0 & EL & A0 & E0 & _). rewrite SL in EL. destruct P as (B & N & S0 & C & D & V).
    exists a0, b, c, d, e0. split; [rewrite EL; unfold array_core; rewrite <- !app_assoc; reflexivity|auto 12].
  - intros (a & b & c & d & e & -> & A & B & N & S0 & C & D & V & E).
    assert (P : array_parts b name size c d value) by (unfold array_parts; auto 12).
    replace (strip _) with (array_core b name size c d value).
    2: { symmetry. etransitivity; [|exact (strip_tight _ (array_tight b name size c d value) a e A E)]. f_equal. unfold array_core. rewrite <- !app_assoc. reflexivity. }
    pose proof (array_found _ _ _ _ _ _ P) as I. destruct (re_array (array_core b name size c d value)) as [|o l] eqn:R; [contradiction|]. cbn.
    assert (J : In o (re_array (array_core b name size c d value))) by (rewrite R; left; reflexivity).
    apply array_in in J as (a1 & b1 & n1 & s1 & c1 & d1 & v1 & e1 & EQ & P1 & A1 & E1 & ->).
    apply (f_equal strip) in EQ. rewrite strip_tight in EQ by (try assumption; apply array_tight).
    pose proof (strip_tight _ (array_tight b name size c d value) [] [] ltac:(constructor) ltac:(constructor)) as S1. cbn [app] in S1. rewrite app_nil_r in S1. rewrite S1 in EQ.
    destruct (array_unique _ _ _ _ _ _ _ _ _ _ _ _ P P1 EQ) as (-> & -> & ->). reflexivity.
Qed.
Lemma array_declared_iff line name v : option_map array_parse (array_match line) = Some (name, v) <-> array_declared line name v.
Proof.
  unfold array_declared. split.
  - destruct (array_match line) as [[n sz val]|] eqn:M; [|discriminate]. cbn. intros E. injection E as <- <-. exists sz, val. split; [apply array_iff, M|reflexivity].
  - intros (sz & val & L & ->). apply array_iff in L. rewrite L. reflexivity.
Qed.

(** ** files *)
Section Extract.
Context {A V : Type}.
Variable m : str -> option A.
Variable p : A -> str * V.
Definition declared (l k : str) (v : V) : Prop := option_map p (m l) = Some (k, v).
Lemma extract_loop lines d : let e := fold_left (fun d l => match m l with Some a => dict_put str_eqb d (fst (p a)) (snd (p a)) | None => d end) lines d in
  (NoDup (map fst d) -> NoDup (map fst e)) /\
  (forall k v, lookup str_eqb e k = Ok v <-> last_declared declared lines k v \/ (lookup str_eqb d k = Ok v /\ forall l w, In l lines -> ~ declared l k w)).
Proof.
  revert d. induction lines as [|l lines IH]; intros d; cbn [fold_left].
  - split; [auto|]. intros k v. split.
    + intros H. right. split; [exact H|]. intros l w [].
    + intros [(b & x & a & E & _)|[H _]]; [destruct b; discriminate|exact H].
  - destruct (m l) as [a|] eqn:M.
    + destruct (p a) as [k v] eqn:P. cbn [fst snd]. assert (D : declared l k v) by (unfold declared; rewrite M; cbn; congruence).
      assert (U : forall k' v', declared l k' v' -> k' = k /\ v' = v) by (unfold declared in *; intros k' v' H; rewrite D in H; injection H as <- <-; auto).
      destruct (IH (dict_put str_eqb d k v)) as (ND & G). split; [intros N; apply ND, dict_put_nodup, N|].
      intros k' v'. rewrite G, (dict_put_get str_eqb str_decides). split.
      * intros [(b & x & af & -> & A' & L)|[E N]].
        -- left. exists (l :: b), x, af. split; [reflexivity|split; assumption].
        -- destruct (str_eqb k k') eqn:Q.
           ++ apply str_eqb_eq in Q. subst k'. injection E as <-. left. exists [], l, lines. split; [reflexivity|]. split; [exact D|exact N].
           ++ right. split; [exact E|]. intros l' w [<-|H']; [|apply N, H']. intros A'. apply U in A' as (-> & _). rewrite str_eqb_refl in Q. discriminate.
      * intros [(b & x & af & E & A' & L)|[E N]].
        -- destruct b as [|y b]; cbn in E; injection E as -> E.
           ++ subst af. apply U in A' as (-> & ->). right. rewrite str_eqb_refl. split; [reflexivity|exact L].
           ++ left. exists b, x, af. split; [exact E|split; assumption].
        -- right. destruct (str_eqb k k') eqn:Q; [apply str_eqb_eq in Q; subst k'; exfalso; exact (N l v (or_introl eq_refl) D)|].
           split; [exact E|]. intros l' w H'. apply N. right. exact H'.
    + assert (U : forall k' v', ~ declared l k' v') by (unfold declared; intros k' v' H; rewrite M in H; discriminate).
      destruct (IH d) as (ND & G). split; [exact ND|]. intros k v. rewrite G. split.
      * intros [(b & x & af & -> & A' & L)|[E N]].
        -- left. exists (l :: b), x, af. split; [reflexivity|split; assumption].
        -- right. split; [exact E|]. intros l' w [<-|H']; [apply U|apply N, H'].
      * intros [(b & x & af & E & A' & L)|[E N]].
        -- destruct b as [|y b]; cbn in E; injection E as -> E; [exfalso; exact (U _ _ A')|]. left. exists b, x, af. split; [exact E|split; assumption].
        -- right. split; [exact E|]. intros l' w H'. apply N. right. exact H'.
Qed.
Lemma extract_spec text : NoDup (map fst (extract m p text)) /\
  forall k v, lookup str_eqb (extract m p text) k = Ok v <-> last_declared declared (file_lines text) k v.
Proof.
  destruct (extract_loop (file_lines text) []) as (ND & G). split; [apply ND; constructor|]. intros k v. unfold extract. rewrite G. split; [intros [H|[H _]]; [exact H|discriminate]|auto].
Qed.
(** the order of the first declarations *)
Lemma dict_put_old (d : list (str * V)) k v : In k (map fst d) -> map fst (dict_put str_eqb d k v) = map fst d.
Proof.
  induction d as [|[h w] d IH]; cbn; [intros []|]. intros I. destruct (str_eqb h k) eqn:E; cbn; [reflexivity|]. f_equal. apply IH.
  destruct I as [->|I]; [rewrite str_eqb_refl in E; discriminate|exact I].
Qed.
End Extract.
Lemma last_declared_impl {V} (P Q : str -> str -> V -> Prop) lines k v : (forall l k v, P l k v <-> Q l k v) -> last_declared P lines k v <-> last_declared Q lines k v.
Proof.
  intros H. split; intros (b & l & a & E & D & N); exists b, l, a; (split; [exact E|]); (split; [apply H, D|]); intros l' w I D'; apply (N l' w I), H, D'.
Qed.
