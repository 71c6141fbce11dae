(** Proofs about command lines (C89). *)
From Verif Require Import PyBase PyLemmas ContainerModel ContainerProofs CommandModel CommandSpec.

Lemma plain_dashed t : plain t <-> dashed t = false.
Proof.
  unfold plain, dashed. split.
  - intros H. destruct t as [|c [|d t]]; try reflexivity.
    destruct (Ascii.eqb c "-") eqn:E; [|reflexivity]. apply Ascii.eqb_eq in E as ->. now specialize (H _ eq_refl).
  - intros H r ->. destruct r as [|d r]; [reflexivity|]. now rewrite Ascii.eqb_refl in H.
Qed.

Section Parser.
Variable p : parser.
Hypothesis W : well_formed p.

Lemma find_called n o : called p n o -> find_opt p n = Some o.
Proof using W.
  intros C. unfold find_opt. destruct (find _ _) as [o'|] eqn:E.
  - apply find_some in E as [H1 H2]. apply (mem_spec str_eqb str_eqb_eq) in H2.
    f_equal. apply (distinct_options _ W n); [now split|assumption].
  - destruct C as [C1 C2]. pose proof (find_none _ _ E o C1) as H. cbn in H.
    apply (mem_spec str_eqb str_eqb_eq) in C2. congruence.
Qed.
Lemma find_called_inv n o : find_opt p n = Some o -> called p n o.
Proof using.
  intros E. unfold find_opt in E. apply find_some in E as [H1 H2]. apply (mem_spec str_eqb str_eqb_eq) in H2. now split.
Qed.
Lemma find_plain t : plain t -> find_opt p t = None.
Proof using W.
  intros Pt. destruct (find_opt p t) as [o|] eqn:E; [|reflexivity]. apply find_called_inv in E.
  exfalso. now apply (dashes _ W t o).
Qed.

(** ** Item by item *)

Definition arg_value (k : kind) (old : value) (args : list str) : value :=
  match consume k old args with Parsed (v, _) => v | _ => VNone end.

Definition step_item (st : pstate) (i : item) : option pstate :=
  match i with
  | Bare t => Some (take_positionals st [t])
  | Option n args =>
      match find_opt p n with
      | None => None
      | Some o =>
          if conflict st o then None
          else Some (mkpstate (todo st) (assign (ns st) (dest o) (arg_value (okind o) (ns st (dest o)) args))
                       (extra st) (if exclusive o then option_name o :: seen st else seen st))
      end
  end.
Fixpoint steps (st : pstate) (items : list item) : option pstate :=
  match items with
  | [] => Some st
  | i :: r => match step_item st i with Some st' => steps st' r | None => None end
  end.

Lemma take_positionals_cons st t args :
  take_positionals st (t :: args) = take_positionals (take_positionals st [t]) args.
Proof using.
  cbn. destruct (todo st) as [|x xs]; [|reflexivity]. destruct args; reflexivity.
Qed.

Lemma chunks_plain args ts : Forall plain args ->
  chunks p (args ++ ts) = (args ++ fst (chunks p ts), snd (chunks p ts)).
Proof using W.
  induction args as [|t args IH]; intros H; [cbn; now destruct (chunks p ts)|].
  inversion H; subst. cbn [app chunks]. rewrite IH by assumption. rewrite find_plain by assumption. reflexivity.
Qed.

Lemma digits_int t : t <> [] -> Forall (fun c => is_digit c = true) t -> int_of t = Parsed (N_of_str t).
Proof using.
  intros N H. unfold int_of. destruct t; [contradiction|].
  rewrite (proj2 (forallb_forall is_digit (a :: t))); [reflexivity|]. now apply Forall_forall.
Qed.

Lemma consume_fitting k old args rest : fitting k args -> (greedy k -> rest = []) ->
  consume k old (args ++ rest) = Parsed (arg_value k old args, rest).
Proof using.
  intros F G. unfold arg_value. destruct k; cbn in F |- *.
  - destruct F as (t & ->). reflexivity.
  - destruct F as (t & -> & N & D). cbn. rewrite (digits_int t N D). reflexivity.
  - subst. reflexivity.
  - rewrite (G (or_introl eq_refl)). now rewrite app_nil_r.
  - rewrite (G (or_intror eq_refl)), app_nil_r. destruct args; [contradiction|reflexivity].
  - destruct F as (t & ->). reflexivity.
  - subst. reflexivity.
Qed.

Lemma not_bare_chunks items : well_written p items -> (forall t r, items <> Bare t :: r) ->
  fst (chunks p (line_of items)) = [].
Proof using W.
  destruct items as [|[t|n args] r]; intros H N; [reflexivity|now destruct (N t r)|].
  cbn in H. destruct H as ((o & C & _) & _). cbn [line_of flat_map words app chunks].
  destruct (chunks p (args ++ flat_map words r)). now rewrite (find_called n o C).
Qed.

Lemma by_items items : forall st, well_written p items ->
  take_options (take_positionals st (fst (chunks p (line_of items)))) (snd (chunks p (line_of items)))
  = match steps st items with Some st' => Parsed st' | None => UsageError end.
Proof using W.
  induction items as [|[t|n args] r IH]; intros st H; [reflexivity| |].
  - cbn in H. destruct H as [Pt Hr]. cbn [line_of flat_map words app]. change (flat_map words r) with (line_of r).
    cbn [chunks]. rewrite (find_plain t Pt). destruct (chunks p (line_of r)) as [args os] eqn:E. cbn [fst snd] in *.
    rewrite take_positionals_cons. cbn [steps step_item]. apply IH. assumption.
  - cbn in H. destruct H as ((o & C & F & G) & Pa & Hr).
    cbn [line_of flat_map words app]. change (flat_map words r) with (line_of r).
    cbn [chunks]. rewrite (chunks_plain args _ Pa). rewrite (find_called n o C). cbn [fst snd].
    cbn [take_positionals take_options steps step_item]. rewrite (find_called n o C).
    rewrite consume_fitting; [|assumption|].
    2: { intros Gk. apply not_bare_chunks; [assumption|]. now apply G. }
    destruct (conflict st o); [reflexivity|]. apply IH. assumption.
Qed.

Lemma plain_line items : well_written p items ->
  existsb (fun t => dashed t && match find_opt p t with Some _ => false | None => true end) (line_of items) = false.
Proof using W.
  intros H. assert (forall t, plain t -> dashed t && match find_opt p t with Some _ => false | None => true end = false) as Q.
  { intros t Pt. apply plain_dashed in Pt. now rewrite Pt. }
  induction items as [|[t|n args] r IH]; [reflexivity| |]; cbn in H; cbn [line_of flat_map words app existsb].
  - destruct H as [Pt Hr]. rewrite (Q t Pt). now apply IH.
  - destruct H as ((o & C & _) & Pa & Hr). rewrite (find_called n o C), Bool.andb_false_r. cbn [orb].
    rewrite existsb_app. fold (line_of r). rewrite (IH Hr), Bool.orb_false_r.
    clear -Q Pa. induction Pa; [reflexivity|]. cbn [existsb]. now rewrite Q.
Qed.

Definition start : pstate := mkpstate (positionals p) (defaults p) false [].
Lemma parse_items items : well_written p items ->
  parse p (line_of items) =
  match steps start items with
  | None => UsageError
  | Some st => if extra st then UsageError
      else match todo st with
           | _ :: _ => UsageError
           | [] => match required p, seen st with true, [] => UsageError | _, _ => Parsed (ns st) end
           end
  end.
Proof using W.
  intros H. unfold parse. rewrite (plain_line items H).
  pose proof (by_items items start H) as B. destruct (chunks p (line_of items)) as [args os]. cbn [fst snd] in B.
  fold start. rewrite B. destruct (steps start items); reflexivity.
Qed.

(** ** The state after the items *)

Lemma seen_conflict (items0 : list item) st o :
  (forall x, In x (seen st) <-> exists o', given p items0 o' /\ exclusive o' = true /\ x = option_name o') ->
  In o (opts p) ->
  conflict st o = true <-> exclusive o = true /\ exists o', given p items0 o' /\ exclusive o' = true /\ o' <> o.
Proof using W.
  intros S Io. unfold conflict. rewrite Bool.andb_true_iff. split; intros [E H]; (split; [assumption|]).
  - apply existsb_exists in H as (x & Hx & N). apply S in Hx as (o' & G & X & ->). exists o'. split; [assumption|].
    split; [assumption|]. intros ->. now rewrite str_eqb_refl in N.
  - destruct H as (o' & G & X & N). apply existsb_exists. exists (option_name o'). split; [apply S; now exists o'|].
    destruct (str_eqb (option_name o') (option_name o)) eqn:Q; [|reflexivity]. apply str_eqb_eq in Q. exfalso. apply N.
    assert (forall o0, In o0 (opts p) -> called p (option_name o0) o0) as Cn.
    { intros o0 I0. split; [assumption|]. pose proof (named_options _ W o0 I0) as N0. unfold option_name.
      destruct (strings o0); [contradiction|]. now left. }
    destruct G as (n & args & _ & [Io' _]). apply (distinct_options _ W (option_name o)).
    + rewrite <- Q. now apply Cn.
    + now apply Cn.
Qed.

Lemma given_app items1 items2 o : given p (items1 ++ items2) o <-> given p items1 o \/ given p items2 o.
Proof using.
  unfold given. split.
  - intros (n & args & H & C). apply in_app_or in H as [H|H]; [left|right]; now exists n, args.
  - intros [(n & args & H & C)|(n & args & H & C)]; exists n, args; (split; [apply in_or_app; auto|assumption]).
Qed.
Lemma given_bare t o : ~ given p [Bare t] o.
Proof using. intros (n & args & [H|[]] & _). discriminate. Qed.
Lemma given_one n args o o' : called p n o -> given p [Option n args] o' <-> o' = o.
Proof using W.
  intros C. split.
  - intros (n' & args' & [H|[]] & C'). injection H as <- <-. now apply (distinct_options _ W n).
  - intros ->. exists n, args. split; [now left|assumption].
Qed.

Record reached (items : list item) (st : pstate) : Prop := {
  r_seen : forall x, In x (seen st) <-> exists o', given p items o' /\ exclusive o' = true /\ x = option_name o';
  r_todo : todo st = skipn (length (bare items)) (positionals p);
  r_extra : extra st = true <-> length (positionals p) < length (bare items);
  r_bare : forall k x t, nth_error (positionals p) k = Some x -> nth_error (bare items) k = Some t -> ns st x = VText t;
  r_last : forall before n args after o, items = before ++ Option n args :: after -> called p n o ->
    (forall o', given p after o' -> dest o' <> dest o) -> value_for (okind o) args (ns st (dest o));
  r_default : forall d, ~ In d (positionals p) -> (forall o, given p items o -> dest o <> d) -> ns st d = defaults p d;
  r_single : forall o o', given p items o -> given p items o' -> exclusive o = true -> exclusive o' = true -> o = o' }.

Lemma reached_start : reached [] start.
Proof using.
  constructor; cbn.
  - intros x. split; [intros []|]. intros (o & (n & args & [] & _) & _).
  - reflexivity.
  - split; [discriminate|lia].
  - intros [|k]; discriminate.
  - intros before n args after o E. destruct before; discriminate.
  - reflexivity.
  - intros o o' (n & args & [] & _).
Qed.

Lemma bare_app a b : bare (a ++ b) = bare a ++ bare b.
Proof using. unfold bare. now rewrite flat_map_app. Qed.

Lemma app_last_cases {A} (a : list A) x b y c : a ++ [x] = b ++ y :: c ->
  (c = [] /\ y = x /\ a = b) \/ exists c', c = c' ++ [x] /\ a = b ++ y :: c'.
Proof using.
  destruct c as [|z c _] using rev_ind; intros E.
  - apply app_inj_tail in E as [-> ->]. now left.
  - right. exists c. rewrite app_comm_cons, app_assoc in E. apply app_inj_tail in E as [-> ->]. now split.
Qed.

Lemma skipn_S {A} k (l : list A) : skipn (S k) l = tl (skipn k l).
Proof using. revert l. induction k; intros [|x l]; cbn; try reflexivity. rewrite <- IHk. now destruct l. Qed.
Lemma skipn_head {A} k (l : list A) x r : skipn k l = x :: r -> nth_error l k = Some x.
Proof using. revert l. induction k; intros [|y l] E; cbn in *; try discriminate; [congruence|auto]. Qed.
Lemma skipn_none {A} k (l : list A) : skipn k l = [] -> length l <= k.
Proof using. intros E. apply (f_equal (@length _)) in E. rewrite skipn_length in E. cbn in E. lia. Qed.

Lemma reached_bare items st t : reached items st -> reached (items ++ [Bare t]) (take_positionals st [t]).
Proof using W.
  intros R. assert (forall o, given p (items ++ [Bare t]) o <-> given p items o) as G.
  { intros o. rewrite given_app. split; [intros [H|H]; [assumption|now apply given_bare in H]|now left]. }
  assert (bare (items ++ [Bare t]) = bare items ++ [t]) as B by (rewrite bare_app; reflexivity).
  pose proof (r_todo _ _ R) as T. cbn [take_positionals].
  assert (forall k, nth_error (bare items) k = None -> forall t', nth_error (bare items ++ [t]) k = Some t' ->
    k = length (bare items) /\ t' = t) as Last.
  { intros k N t' H. apply nth_error_None in N. rewrite nth_error_app2 in H by assumption.
    destruct (k - length (bare items)) as [|j] eqn:Ej; [|destruct j; discriminate]. injection H as <-. split; [lia|reflexivity]. }
  destruct (todo st) as [|x xs] eqn:Et; constructor; rewrite ?B; cbn [todo ns extra seen].
  - intros y. rewrite (r_seen _ _ R). split; intros (o' & H & K); exists o'; (split; [now apply G|assumption]).
  - symmetry. apply skipn_all2. rewrite app_length. cbn. symmetry in T. apply skipn_none in T. lia.
  - split; [|reflexivity]. intros _. symmetry in T. apply skipn_none in T. rewrite app_length. cbn. lia.
  - intros k y t' H1 H2. destruct (nth_error (bare items) k) as [t0|] eqn:E0.
    + assert (nth_error (bare items ++ [t]) k = Some t0) as E1 by (rewrite nth_error_app1; [assumption|apply nth_error_Some; congruence]).
      rewrite E1 in H2. injection H2 as <-. now apply (r_bare _ _ R k).
    + destruct (Last k E0 t' H2) as [-> ->]. symmetry in T. apply skipn_none in T.
      assert (nth_error (positionals p) (length (bare items)) = None) as N by now apply nth_error_None. congruence.
  - intros before n args after o E C L. destruct (app_last_cases _ _ _ _ _ E) as [(_ & F & _)|(c' & -> & E')]; [discriminate|].
    apply (r_last _ _ R before n args c' o E' C). intros o' H. apply L. rewrite given_app. now left.
  - intros d Nd H. apply (r_default _ _ R d Nd). intros o Ho. apply H. now apply G.
  - intros o o' H H'. apply (r_single _ _ R); now apply G.
  - intros y. rewrite (r_seen _ _ R). split; intros (o' & H & K); exists o'; (split; [now apply G|assumption]).
  - rewrite app_length. cbn [length]. rewrite Nat.add_1_r, skipn_S, <- T. reflexivity.
  - rewrite (r_extra _ _ R), app_length. cbn [length].
    assert (length (bare items) < length (positionals p)).
    { symmetry in T. apply skipn_head in T. apply nth_error_Some. congruence. }
    lia.
  - symmetry in T. apply skipn_head in T. intros k y t' H1 H2. unfold assign.
    destruct (str_eqb y x) eqn:Q.
    + apply str_eqb_eq in Q as ->. assert (k = length (bare items)) as ->.
      { apply (proj1 (NoDup_nth_error (positionals p)) (distinct_names _ W)); [apply nth_error_Some; congruence|congruence]. }
      rewrite nth_error_app2, Nat.sub_diag in H2 by lia. injection H2 as <-. reflexivity.
    + destruct (nth_error (bare items) k) as [t0|] eqn:E0.
      * assert (nth_error (bare items ++ [t]) k = Some t0) as E1 by (rewrite nth_error_app1; [assumption|apply nth_error_Some; congruence]).
        rewrite E1 in H2. injection H2 as <-. now apply (r_bare _ _ R k).
      * destruct (Last k E0 t' H2) as [-> ->]. assert (y = x) by congruence. subst y. now rewrite str_eqb_refl in Q.
  - symmetry in T. apply skipn_head in T. apply nth_error_In in T.
    intros before n args after o E C L. destruct (app_last_cases _ _ _ _ _ E) as [(_ & F & _)|(c' & -> & E')]; [discriminate|].
    unfold assign. destruct (str_eqb (dest o) x) eqn:Q.
    + apply str_eqb_eq in Q. exfalso. apply (names_apart _ W o); [apply C|]. now rewrite Q.
    + apply (r_last _ _ R before n args c' o E' C). intros o' H. apply L. rewrite given_app. now left.
  - symmetry in T. apply skipn_head in T. apply nth_error_In in T.
    intros d Nd H. unfold assign. destruct (str_eqb d x) eqn:Q; [apply str_eqb_eq in Q; subst d; contradiction|].
    apply (r_default _ _ R d Nd). intros o Ho. apply H. now apply G.
  - intros o o' H H'. apply (r_single _ _ R); now apply G.
Qed.

Lemma value_consumed k old args : fitting k args -> value_for k args (arg_value k old args).
Proof using.
  intros F. unfold arg_value. destruct k; cbn in *.
  - destruct F as (t & ->). now exists t.
  - destruct F as (t & -> & N & D). exists t. split; [reflexivity|]. cbn. now rewrite digits_int.
  - now subst.
  - reflexivity.
  - destruct args; [contradiction|reflexivity].
  - exact I.
  - now subst.
Qed.

Lemma reached_option items st n args o : reached items st -> called p n o -> fitting (okind o) args ->
  conflict st o = false ->
  reached (items ++ [Option n args])
    (mkpstate (todo st) (assign (ns st) (dest o) (arg_value (okind o) (ns st (dest o)) args))
       (extra st) (if exclusive o then option_name o :: seen st else seen st)).
Proof using W.
  intros R C F Nc. assert (forall o', given p (items ++ [Option n args]) o' <-> given p items o' \/ o' = o) as G.
  { intros o'. rewrite given_app. now rewrite (given_one n args o o' C). }
  assert (bare (items ++ [Option n args]) = bare items) as B by (rewrite bare_app; apply app_nil_r).
  constructor; rewrite ?B; cbn [todo ns extra seen].
  - intros x. destruct (exclusive o) eqn:X; cbn [In]; rewrite (r_seen _ _ R x); split.
    + intros [<-|(o' & H & K)]; [exists o; split; [apply G; now right|now split]|exists o'; split; [apply G; now left|assumption]].
    + intros (o' & H & X' & ->). apply G in H as [H| ->]; [right; now exists o'|now left].
    + intros (o' & H & K). exists o'. split; [apply G; now left|assumption].
    + intros (o' & H & X' & ->). apply G in H as [H| ->]; [now exists o'|congruence].
  - apply (r_todo _ _ R).
  - apply (r_extra _ _ R).
  - intros k x t H1 H2. unfold assign. destruct (str_eqb x (dest o)) eqn:Q; [|now apply (r_bare _ _ R k)].
    apply str_eqb_eq in Q. subst x. exfalso. apply (names_apart _ W o); [apply C|]. now apply nth_error_In in H1.
  - intros before n' args' after o' E C' L. destruct (app_last_cases _ _ _ _ _ E) as [(-> & E' & _)|(c' & -> & E')].
    + injection E' as -> ->. assert (o' = o) as -> by now apply (distinct_options _ W n).
      unfold assign. rewrite str_eqb_refl. now apply value_consumed.
    + unfold assign. destruct (str_eqb (dest o') (dest o)) eqn:Q.
      * apply str_eqb_eq in Q. exfalso. apply (L o); [|now symmetry]. rewrite given_app. right. now apply (given_one n args o o C).
      * apply (r_last _ _ R before n' args' c' o' E' C'). intros o2 H. apply L. rewrite given_app. now left.
  - intros d Nd H. unfold assign. destruct (str_eqb d (dest o)) eqn:Q.
    + apply str_eqb_eq in Q. exfalso. apply (H o); [apply G; now right|now symmetry].
    + apply (r_default _ _ R d Nd). intros o' Ho. apply H. apply G. now left.
  - assert (forall o', given p items o' -> exclusive o' = true -> exclusive o = true -> o' = o) as Q.
    { intros o' H X' X. destruct C as [Io C]. destruct (conflict st o) eqn:E; [discriminate|].
      assert (~ o' <> o) as NN.
      { intros N. assert (conflict st o = true); [|congruence].
        apply (seen_conflict items st o (r_seen _ _ R) Io). split; [assumption|]. now exists o'. }
      assert (called p (option_name o) o) as Cn.
      { split; [assumption|]. pose proof (named_options _ W o Io) as N0. unfold option_name. destruct (strings o); [contradiction|]. now left. }
      destruct (str_eq_dec (option_name o') (option_name o)) as [En|Nn].
      - apply (distinct_options _ W (option_name o)); [|assumption]. destruct H as (n2 & args2 & _ & [Io' _]).
        split; [assumption|]. rewrite <- En. pose proof (named_options _ W o' Io') as N0. unfold option_name.
        destruct (strings o'); [contradiction|]. now left.
      - exfalso. apply NN. intros ->. now apply Nn. }
    intros o1 o2 H1 H2 X1 X2. apply G in H1 as [H1| ->]; apply G in H2 as [H2| ->].
    + now apply (r_single _ _ R).
    + now apply Q.
    + symmetry. now apply Q.
    + reflexivity.
Qed.

Lemma steps_reached items : forall items0 st, reached items0 st -> well_written p items ->
  match steps st items with
  | Some st' => reached (items0 ++ items) st'
  | None => exists o o', given p (items0 ++ items) o /\ given p (items0 ++ items) o'
      /\ exclusive o = true /\ exclusive o' = true /\ o <> o'
  end.
Proof using W.
  induction items as [|[t|n args] r IH]; intros items0 st R H; cbn [steps step_item].
  - now rewrite app_nil_r.
  - cbn in H. destruct H as [_ Hr]. specialize (IH (items0 ++ [Bare t]) _ (reached_bare _ _ t R) Hr).
    now rewrite <- app_assoc in IH.
  - cbn in H. destruct H as ((o & C & F & _) & _ & Hr). rewrite (find_called n o C).
    destruct (conflict st o) eqn:E.
    + apply (seen_conflict items0 st o (r_seen _ _ R) (proj1 C)) in E as (X & o' & G & X' & N).
      exists o', o. split; [rewrite given_app; now left|]. split; [|auto].
      rewrite given_app. right. exists n, args. split; [now left|assumption].
    + specialize (IH (items0 ++ [Option n args]) _ (reached_option _ _ n args o R C F E) Hr).
      now rewrite <- app_assoc in IH.
Qed.

(** ** The two directions *)

Lemma default_in o : In o (opts p) -> defaults p (dest o) = default_of (okind o).
Proof using W.
  intros Io. unfold defaults. destruct (find _ _) as [o'|] eqn:E.
  - apply find_some in E as [H1 H2]. apply str_eqb_eq in H2. now apply (same_default _ W).
  - pose proof (find_none _ _ E o Io) as H. cbn in H. now rewrite str_eqb_refl in H.
Qed.

Lemma accepted items : well_written p items -> complete p items ->
  exists a, parse p (line_of items) = Parsed a /\ settings_of p items a.
Proof using W.
  intros H (Cn & Cs & Cr). rewrite (parse_items items H).
  pose proof (steps_reached items [] start reached_start H) as S. destruct (steps start items) as [st|].
  - cbn [app] in S. destruct (extra st) eqn:X; [apply (r_extra _ _ S) in X; lia|].
    rewrite (r_todo _ _ S), Cn, skipn_all.
    exists (ns st). split.
    + destruct (required p) eqn:Q; [|reflexivity]. destruct (seen st) eqn:Es; [|reflexivity].
      destruct (Cr eq_refl) as (o & G & Xo). assert (In (option_name o) (seen st)) as I by (apply (r_seen _ _ S); now exists o).
      rewrite Es in I. destruct I.
    + constructor.
      * apply (r_bare _ _ S).
      * apply (r_last _ _ S).
      * intros d Nd Hd o Io <-. rewrite (r_default _ _ S (dest o) Nd Hd). now apply default_in.
  - destruct S as (o & o' & G & G' & X & X' & N). exfalso. apply N. now apply Cs.
Qed.

Lemma refused items : well_written p items -> ~ complete p items -> parse p (line_of items) = UsageError.
Proof using W.
  intros H N. rewrite (parse_items items H).
  pose proof (steps_reached items [] start reached_start H) as S. destruct (steps start items) as [st|]; [|reflexivity].
  cbn [app] in S. destruct (extra st) eqn:X; [reflexivity|]. destruct (todo st) as [|x xs] eqn:Et; [|reflexivity].
  rewrite (r_todo _ _ S) in Et. apply skipn_none in Et.
  destruct (required p) eqn:Q; [destruct (seen st) as [|y l] eqn:Es; [reflexivity|]|].
  all: exfalso; apply N; split; [|split; [apply (r_single _ _ S)|]].
  all: try (assert (~ length (positionals p) < length (bare items)) by (intros L; apply (r_extra _ _ S) in L; congruence); lia).
  - intros _. assert (In y (seen st)) as I by (rewrite Es; now left). apply (r_seen _ _ S) in I as (o & G & Xo & _). now exists o.
Qed.

(** What is not refused was written correctly. *)
Lemma chunks_inv ts : forall args os, chunks p ts = (args, os) ->
  Forall (fun t => dashed t = true -> find_opt p t <> None) ts ->
  exists ts', ts = args ++ ts' /\ chunks p ts' = ([], os) /\ Forall plain args
  /\ match ts' with [] => True | t :: _ => find_opt p t <> None end.
Proof using.
  induction ts as [|t ts IH]; intros args os E H; cbn in E.
  - injection E as <- <-. exists []. repeat split; constructor.
  - inversion H; subst. destruct (chunks p ts) as [args1 os1] eqn:E1. destruct (find_opt p t) as [o|] eqn:Eo.
    + injection E as <- <-. exists (t :: ts). split; [reflexivity|]. split; [cbn; now rewrite E1, Eo|]. split; [constructor|congruence].
    + injection E as <- <-. destruct (IH _ _ eq_refl H3) as (ts' & -> & C & Pa & Hd).
      exists ts'. split; [reflexivity|]. split; [assumption|]. split; [|assumption]. constructor; [|assumption].
      apply plain_dashed. destruct (dashed t); [now specialize (H2 eq_refl)|reflexivity].
Qed.

Lemma int_digits t n : int_of t = Parsed n -> t <> [] /\ Forall (fun c => is_digit c = true) t.
Proof using.
  unfold int_of. destruct t as [|c t]; [discriminate|]. destruct (forallb is_digit (c :: t)) eqn:E.
  - intros _. split; [discriminate|]. apply Forall_forall. now apply forallb_forall.
  - destruct (existsb _ _); discriminate.
Qed.

Lemma items_of_line : forall n ts, length ts <= n -> forall st st',
  Forall (fun t => dashed t = true -> find_opt p t <> None) ts ->
  take_options (take_positionals st (fst (chunks p ts))) (snd (chunks p ts)) = Parsed st' ->
  exists items, well_written p items /\ line_of items = ts.
Proof using W.
  induction n as [|n IH]; intros ts L st st' H E.
  - destruct ts; [|cbn in L; lia]. exists []. now split.
  - destruct ts as [|t ts]; [exists []; now split|]. inversion H as [|? ? Ht Hts]; subst. cbn [length] in L.
    cbn [chunks] in E. destruct (chunks p ts) as [args os] eqn:Ec. destruct (find_opt p t) as [o|] eqn:Eo.
    + apply find_called_inv in Eo. cbn [fst snd take_positionals take_options] in E.
      destruct (chunks_inv ts args os Ec Hts) as (ts' & -> & Ec' & Pa & Hd).
      apply Forall_app in Hts as [_ Hts'].
      destruct (consume (okind o) (ns st (dest o)) args) as [[v rest]| |] eqn:Eq; try discriminate.
      destruct (conflict st o) eqn:Ecf; [discriminate|].
      assert (exists used, args = used ++ rest /\ fitting (okind o) used /\ (greedy (okind o) -> rest = [])) as (used & -> & F & G).
      { unfold greedy. destruct (okind o); cbn in Eq |- *.
        - destruct args as [|x r]; [discriminate|]. injection Eq as <- <-. exists [x]. split; [reflexivity|]. split; [now exists x|intros [|]; discriminate].
        - destruct args as [|x r]; [discriminate|]. destruct (int_of x) as [k| |] eqn:Ei; try discriminate. injection Eq as <- <-.
          exists [x]. split; [reflexivity|]. split; [|intros [|]; discriminate]. exists x. split; [reflexivity|]. now apply int_digits in Ei.
        - injection Eq as <- <-. exists []. split; [reflexivity|]. split; [reflexivity|intros [|]; discriminate].
        - injection Eq as <- <-. exists args. split; [now rewrite app_nil_r|]. now split.
        - destruct args as [|x r]; [discriminate|]. injection Eq as <- <-. exists (x :: r). split; [now rewrite app_nil_r|]. split; [discriminate|reflexivity].
        - destruct args as [|x r]; [discriminate|]. injection Eq as <- <-. exists [x]. split; [reflexivity|]. split; [now exists x|intros [|]; discriminate].
        - injection Eq as <- <-. exists []. split; [reflexivity|]. split; [reflexivity|intros [|]; discriminate]. }
      apply Forall_app in Pa as [Pu Pr].
      destruct (IH (rest ++ ts')) with (st := mkpstate (todo st) (assign (ns st) (dest o) v) (extra st)
           (if exclusive o then option_name o :: seen st else seen st)) (st' := st') as (items & Wi & Li).
      * rewrite !app_length in L. rewrite app_length. lia.
      * apply Forall_app. split; [|assumption]. eapply Forall_impl; [|exact Pr]. intros x Px Dx. apply plain_dashed in Px. congruence.
      * rewrite (chunks_plain rest ts' Pr). rewrite Ec'. cbn [fst snd]. rewrite app_nil_r. exact E.
      * exists (Option t used :: items). split; [|cbn [line_of flat_map words app]; change (flat_map words items) with (line_of items); now rewrite Li, <- app_assoc].
        cbn [well_written]. split; [|split; [assumption|assumption]]. exists o. split; [assumption|]. split; [assumption|].
        intros Gk x r' ->. rewrite (G Gk) in Li. cbn [app] in Li. cbn in Li. destruct ts' as [|y ts']; [discriminate|].
        injection Li as <- _. cbn in Wi. apply Hd. apply find_plain. apply Wi.
    + cbn [fst snd] in E. rewrite take_positionals_cons in E.
      destruct (IH ts ltac:(lia) (take_positionals st [t]) st' Hts) as (items & Wi & Li).
      { now rewrite Ec. }
      exists (Bare t :: items). split; [|cbn [line_of flat_map words app]; change (flat_map words items) with (line_of items); now rewrite Li].
      cbn. split; [|assumption]. apply plain_dashed. destruct (dashed t); [now specialize (Ht eq_refl)|reflexivity].
Qed.

Lemma parsed_items ts a : parse p ts = Parsed a ->
  exists items, line_of items = ts /\ well_written p items /\ complete p items.
Proof using W.
  intros E. pose proof E as E0. unfold parse in E.
  destruct (existsb _ ts) eqn:X; [discriminate|].
  assert (Forall (fun t => dashed t = true -> find_opt p t <> None) ts) as H.
  { apply Forall_forall. intros t Ht D F.
    assert (existsb (fun t => dashed t && match find_opt p t with Some _ => false | None => true end) ts = true); [|congruence].
    apply existsb_exists. exists t. split; [assumption|]. now rewrite D, F. }
  fold start in E. destruct (chunks p ts) as [args os] eqn:Ec.
  destruct (take_options (take_positionals start args) os) as [st| |] eqn:Et; try discriminate.
  destruct (items_of_line (length ts) ts (le_n _) start st H) as (items & Wi & Li).
  { now rewrite Ec. }
  exists items. split; [assumption|]. split; [assumption|].
  rewrite <- Li, (parse_items items Wi) in E0.
  pose proof (steps_reached items [] start reached_start Wi) as S. destruct (steps start items) as [st1|]; [|discriminate].
  cbn [app] in S. destruct (extra st1) eqn:X1; [discriminate|]. destruct (todo st1) as [|x xs] eqn:T1; [|discriminate].
  rewrite (r_todo _ _ S) in T1. apply skipn_none in T1.
  assert (~ length (positionals p) < length (bare items)) by (intros L; apply (r_extra _ _ S) in L; congruence).
  split; [lia|]. split; [apply (r_single _ _ S)|].
  intros Q. rewrite Q in E0. destruct (seen st1) as [|y l] eqn:Es; [discriminate|].
  assert (In y (seen st1)) as I by (rewrite Es; now left). apply (r_seen _ _ S) in I as (o & G & Xo & _). now exists o.
Qed.

End Parser.
