(** * What constraints select: C66 *)
From Verif Require Import PyBase PyLemmas ContainerModel ContainerSpec ContainerProofs ContainerProofs2 Nd IndexModel IndexSpec IndexProofs IndexProofs2 IndexProperties ArrayModel ArraySpec AxesModel AxisModel AxisSpec AxisProofs AxesProperties ContainerProperties PhysicalModel PhysicalSpec AtomicModel ObservableModel ObservableSpec ObservableProofs ObservableProperties.

Lemma on_axis_positions data ts : data <> [] -> Forall (on_axis data) ts -> exists zs, Forall2 (fun t z => on_axis data t /\ closest_at data t z) ts zs.
Proof.
  intros NE F. induction F as [|t ts O F (zs & IH)]; [exists []; constructor|]. destruct (C10_closest_member data t NE) as (i & v & H & _).
  apply nearest_closest in H. eexists. constructor; [split; [exact O|exact H]|exact IH].
Qed.
Lemma answer_exists zs : exists p, answers zs p.
Proof. destruct zs as [|z [|z' zs]]; eexists; constructor; discriminate. Qed.
Lemma first_position_exists {A} (dec : forall x y : A, {x = y} + {x <> y}) (data : list A) t : In t data -> exists z, first_position data t z.
Proof.
  induction data as [|d data IH]; [intros []|]. intros H. destruct (dec d t) as [->|N].
  - exists 0%Z, 0. split; [reflexivity|]. split; [reflexivity|lia].
  - destruct H as [H|H]; [contradiction|]. destruct (IH H) as (z & i & _ & E & L). exists (Z.of_nat (S i)), (S i). split; [reflexivity|]. split; [exact E|].
    intros [|j] Hj; cbn [nth_error]; [congruence|apply L; lia].
Qed.
Lemma selected_bound sl n ps p : selects_axis (SSlice sl) n ps -> In p ps -> p < n.
Proof.
  intros H I. inversion H as [| | |? ? ? S|]; subst. destruct S as (NZ & N & K). apply (in_map Z.of_nat) in I. apply In_nth_error in I as (k & E). pose proof (N _ _ E) as V.
  assert (L : k < length (map Z.of_nat ps)) by (apply nth_error_Some; congruence). apply K in L. revert V L. clear E K N. unfold slice_first, slice_last, clamp, from_end.
  set (st := match sl_step sl with Some z => z | None => 1%Z end) in *. clearbody st. destruct (Z.ltb_spec 0 st); destruct (sl_start sl), (sl_stop sl); intros V L; nia.
Qed.

Lemma full_slice_selects n : selects None None None (Z.of_nat n) (map Z.of_nat (seq 0 n)).
Proof.
  split; [discriminate|]. split.
  - intros k p H. rewrite nth_error_map in H. destruct (nth_error (seq 0 n) k) as [j|] eqn:E; [|discriminate]. injection H as <-.
    assert (k < n) by (rewrite <- (seq_length n 0); apply nth_error_Some; congruence). rewrite (nth_error_nth' _ 0) in E by (rewrite seq_length; assumption). rewrite seq_nth in E by assumption. injection E as <-. cbn. lia.
  - intros k. rewrite map_length, seq_length. cbn. lia.
Qed.

Section C66.
Set Default Proof Using "Type".
Context {U B : Type}.
Variables (ueq : U -> U -> bool) (uone : U) (factor : U -> U -> option Qc) (consistent : U -> U -> bool) (is_length : U -> bool).
Hypothesis ueq_refl : forall u, ueq u u = true.
Notation ctx := (context (U := U)).
Notation asks := (asked ueq uone factor consistent is_length).
Notation impl := (implement ueq uone factor consistent).
Notation turn := (turn ueq uone factor consistent).
Notation convert := (fun a b => conversion_factor factor consistent a b).
Notation at_constraints := (getitem (B := B) ueq uone factor consistent is_length).

(** An observation is the operator applied to what is asked, in the unit of the
    quantity; if nothing can be asked there is no observation. *)
Theorem C66_observation c (q : quantity (U := U) (B := B)) m :
  (forall args, asks c (qdims q) m args -> at_constraints c q (under m (qdims q)) = (r <- operator q args ;; in_unit ueq factor consistent q r)) /\
  ((forall args, ~ asks c (qdims q) m args) -> exists e, at_constraints c q (under m (qdims q)) = Raise e).
Proof.
  unfold getitem, observe, asked. rewrite normalize_under. cbn [bind]. rewrite map_length, Nat.eqb_refl. cbn [negb]. rewrite combine_map. split.
  - intros args (user & C & I). rewrite C. cbn [bind]. rewrite I. reflexivity.
  - intros H. destruct (constraints is_length _) as [user|e]; [|exists e; reflexivity]. cbn [bind]. destruct (impl c user) as [args|e] eqn:I; [|exists e; reflexivity]. exfalso. apply (H args). exists user. split; [reflexivity|exact I].
Qed.

(** ** One dimension at a time *)
Lemma filter_one k m (ds : list str) : NoDup ds -> In k ds -> filter (fun kv => mem str_eqb (fst kv) [k]) (map (fun d => (d, m d : uval (U := U))) ds) = [(k, m k)].
Proof.
  intros N I. rewrite (filter_map_fst (fun d => mem str_eqb d [k]) m ds). replace (filter (fun d => mem str_eqb d [k]) ds) with [k]; [reflexivity|]. symmetry.
  apply subseq_filter; [| | |exact N].
  - clear N. induction ds as [|d ds IH]; [destruct I|]. destruct I as [->|I]; [constructor; clear; induction ds; constructor; assumption|constructor; apply IH, I].
  - intros x [<-|[]]. apply mem_str. left. reflexivity.
  - intros x _ H. apply mem_str in H. exact H.
Qed.
Lemma asked_one c ds m args k : proper_dims ds -> In k ds -> asks c ds m args ->
  exists user a', constraints is_length [(k, m k)] = Ok user /\ impl c user = Ok a' /\
  forall d, d = k \/ (d = s "radius" /\ k = s "shell") -> lookup str_eqb (aindices args) d = lookup str_eqb (aindices a') d /\ lookup str_eqb (aassumed args) d = lookup str_eqb (aassumed a') d.
Proof.
  intros (N & R) I (user & Cs & Im). destruct (arguments_sub ueq uone factor consistent is_length c [k] (map (fun d => (d, m d)) ds) user args) as (user' & a' & C' & I' & A); [|exact Cs|exact Im|].
  { rewrite map_map. cbn [fst]. rewrite map_id. exact R. }
  rewrite (filter_one k m ds N I) in C'. exists user', a'. split; [exact C'|]. split; [exact I'|]. intros d Hd. apply A. apply concerns_keys.
  - split; [constructor; [intros []|constructor]|]. intros [E|[]]. apply R. rewrite <- E. exact I.
  - destruct Hd as [->|[-> ->]]; [left; left; reflexivity|right; split; [reflexivity|left; reflexivity]].
Qed.
Lemma constraints_other k v : k <> s "shell" -> constraints is_length [(k, v)] = Ok [(k, v)].
Proof.
  intros N. unfold constraints, shellless. cbn [lookup filter fst]. destruct (str_eqb_spec k (s "shell")); [contradiction|]. reflexivity.
Qed.
(** a dimension other than the shell *)
Lemma asked_dim c ds m args k : proper_dims ds -> In k ds -> k <> s "shell" -> asks c ds m args ->
  exists a', impl c [(k, m k)] = Ok a' /\ lookup str_eqb (aindices args) k = lookup str_eqb (aindices a') k /\ lookup str_eqb (aassumed args) k = lookup str_eqb (aassumed a') k.
Proof.
  intros P I N A. destruct (asked_one c ds m args k P I A) as (user & a' & C & Im & E). rewrite (constraints_other k _ N) in C. injection C as <-. exists a'. split; [exact Im|]. apply E. left. reflexivity.
Qed.
Lemma narrow_none c st key : lookup str_eqb (snd st) key = Raise KeyError -> narrow_axis ueq factor consistent c st key = Ok st.
Proof. intros H. unfold narrow_axis. rewrite H. reflexivity. Qed.
Lemma narrow_shell_none c st : lookup str_eqb (snd st) (s "radius") = Raise KeyError -> narrow_shell ueq factor consistent c st = Ok st.
Proof. intros H. unfold narrow_shell. rewrite H. reflexivity. Qed.
Lemma implement_indexed c k v p : turn c k v = Ok (EIndex p) -> impl c [(k, v)] = Ok (mkargs [(k, p)] []).
Proof.
  intros T. unfold implement. cbn [implement_loop]. rewrite step_turn, T. cbn [bind perform fst snd dict_put].
  rewrite !narrow_none by reflexivity. cbn [bind]. rewrite !narrow_none by reflexivity. cbn [bind]. rewrite !narrow_none by reflexivity. cbn [bind]. rewrite narrow_shell_none by reflexivity. reflexivity.
Qed.
Lemma no_implement c k v e : turn c k v = Raise e -> impl c [(k, v)] = Raise e.
Proof. intros T. unfold implement. cbn [implement_loop]. rewrite step_turn, T. reflexivity. Qed.
Lemma asked_index c ds m args k p : proper_dims ds -> In k ds -> k <> s "shell" -> turn c k (m k) = Ok (EIndex (PPos p)) -> asks c ds m args ->
  indexed_by args k p /\ nothing_assumed args k.
Proof.
  intros P I N T A. destruct (asked_dim c ds m args k P I N A) as (a' & Im & E1 & E2). rewrite (implement_indexed c k (m k) _ T) in Im. injection Im as <-.
  unfold indexed_by, nothing_assumed. rewrite E1, E2. cbn [aindices aassumed lookup]. rewrite str_eqb_refl. split; reflexivity.
Qed.
Lemma not_asked c ds m k e : proper_dims ds -> In k ds -> k <> s "shell" -> turn c k (m k) = Raise e -> forall args, ~ asks c ds m args.
Proof. intros P I N T args A. destruct (asked_dim c ds m args k P I N A) as (a' & Im & _). rewrite (no_implement c k (m k) e T) in Im. discriminate. Qed.

(** ** Indices are passed on as they are *)
Theorem C66_indices c ds m args k x l : proper_dims ds -> In k ds -> k <> s "shell" -> lookup str_eqb (caxes c) k = Ok x -> m k = VIndex l -> asks c ds m args ->
  indexed_by args k (These l) /\ nothing_assumed args k.
Proof.
  intros P I N L E A. apply (asked_index c ds m args k (These l) P I N); [|exact A]. rewrite E. unfold ObservableProofs.turn. cbn [parse_user_arg]. rewrite L. reflexivity.
Qed.
(** ** Slices select what Python slices select *)
Lemma pick_seq ps n : Forall (fun p => p < n) ps -> pick (map Z.of_nat (seq 0 n)) ps = map Z.of_nat ps.
Proof.
  induction 1 as [|p ps H F IH]; [reflexivity|]. unfold pick. cbn [flat_map map]. fold (pick (map Z.of_nat (seq 0 n)) ps). rewrite IH.
  rewrite nth_error_map, (nth_error_nth' _ 0) by (rewrite seq_length; exact H). rewrite seq_nth by exact H. reflexivity.
Qed.
Definition axis_length (x : axis (U := U)) : nat := match x with ACoords data _ => length data | APoints data => length data | ASymbols data => length data end.
Definition is_points (x : axis (U := U)) : bool := match x with APoints _ => true | _ => false end.
Lemma axis_all_seq x : is_points x = false -> axis_all x = map Z.of_nat (seq 0 (axis_length x)).
Proof. destruct x; [reflexivity|discriminate|reflexivity]. Qed.
Theorem C66_slices c ds m args k x sl : proper_dims ds -> In k ds -> k <> s "shell" -> lookup str_eqb (caxes c) k = Ok x -> is_points x = false -> m k = VSlice sl -> asks c ds m args ->
  exists ps, selects_axis (SSlice sl) (axis_length x) ps /\ indexed_by args k (These (map Z.of_nat ps)) /\ nothing_assumed args k.
Proof.
  intros P I N L NP E A. destruct (slice_positions sl (axis_length x)) as [ps|e] eqn:S.
  - exists ps. assert (Se : selects_axis (SSlice sl) (axis_length x) ps) by (constructor; apply slice_positions_selects, S). split; [exact Se|].
    apply (asked_index c ds m args k _ P I N); [|exact A]. rewrite E. unfold ObservableProofs.turn. cbn [parse_user_arg]. rewrite L. unfold axis_slice. rewrite (axis_all_seq x NP), map_length, seq_length, S. cbn [bind].
    rewrite pick_seq; [reflexivity|]. apply Forall_forall. intros p Hp. exact (selected_bound sl _ _ p Se Hp).
  - exfalso. apply (not_asked c ds m k e P I N) with (args := args); [|exact A]. rewrite E. unfold ObservableProofs.turn. cbn [parse_user_arg]. rewrite L. unfold axis_slice. rewrite (axis_all_seq x NP), map_length, seq_length, S. cbn [bind].
    unfold slice_positions in S. destruct (slice_step sl =? 0)%Z; [|discriminate]. injection S as <-. reflexivity.
Qed.

(** ** Values that are on the axis select their positions *)
Theorem C66_coordinates c ds m args k data w l u ts : proper_dims ds -> In k ds -> k <> s "shell" -> lookup str_eqb (caxes c) k = Ok (ACoords data w) ->
  data <> [] -> m k = VMeas l u -> in_axis_unit ueq uone convert w u l ts -> Forall (on_axis data) ts -> asks c ds m args ->
  exists zs p, answers zs p /\ Forall2 (closest_at data) ts zs /\ indexed_by args k p /\ nothing_assumed args k.
Proof using ueq_refl.
  intros P I N L NE E X F A. destruct (on_axis_positions data ts NE F) as (zs & Cl). destruct (answer_exists zs) as (p & An).
  assert (T : coordinates_index ueq uone convert data w l u NoSide = Ok p).
  { apply (C30_coordinates U ueq uone convert data w l u ts p ueq_refl NE X). exists zs. split; [exact An|exact Cl]. }
  exists zs, p. split; [exact An|]. split; [clear - Cl; induction Cl as [|? ? ? ? (_ & H) ? IH]; constructor; assumption|].
  apply (asked_index c ds m args k p P I N); [|exact A]. rewrite E. unfold ObservableProofs.turn. cbn [parse_user_arg]. rewrite L. cbn [axis_find]. rewrite T. cbn [bind]. reflexivity.
Qed.
(** names select the position of the name; others raise *)
Theorem C66_names c ds m args k data t : proper_dims ds -> In k ds -> k <> s "shell" -> lookup str_eqb (caxes c) k = Ok (ASymbols data) -> m k = VName t -> asks c ds m args ->
  exists z, first_position data t z /\ indexed_by args k (At z) /\ nothing_assumed args k.
Proof.
  intros P I N L E A.
  destruct (symbols_index data None (Args [TStr t])) as [p|e] eqn:T.
  - pose proof (proj1 (C30_symbols data None [t] p ltac:(discriminate)) T) as (zs & An & F). inversion F as [|? z ? ? Fz F0]; subst. inversion F0; subst. exists z. split; [exact Fz|].
    inversion An as [|? X]; subst; [|cbn in X; contradiction]. apply (asked_index c ds m args k (At z) P I N); [|exact A].
    rewrite E. unfold ObservableProofs.turn. cbn [parse_user_arg]. rewrite L. cbn [axis_find]. rewrite T. reflexivity.
  - exfalso. assert (e = ValueError) as ->.
    { destruct (in_dec str_eq_dec t data) as [Hi|Hn].
      - exfalso. destruct (first_position_exists str_eq_dec data t Hi) as (z & Hz). assert (Y : symbols_index data None (Args [TStr t]) = Ok (At z)).
        { apply (C30_symbols data None [t] (At z)); [discriminate|]. exists [z]. split; [constructor|]. constructor; [exact Hz|constructor]. } congruence.
      - pose proof (C30_symbols_missing data None [t] t (or_introl eq_refl) Hn) as Y. cbn [map] in Y. congruence. }
    apply (not_asked c ds m k ValueError P I N) with (args := args); [|exact A]. rewrite E. unfold ObservableProofs.turn. cbn [parse_user_arg]. rewrite L. cbn [axis_find]. rewrite T. reflexivity.
Qed.
Theorem C66_unknown_name c (q : quantity (U := U) (B := B)) m k data t : proper_dims (qdims q) -> In k (qdims q) -> k <> s "shell" ->
  lookup str_eqb (caxes c) k = Ok (ASymbols data) -> m k = VName t -> ~ In t data -> exists e, at_constraints c q (under m (qdims q)) = Raise e.
Proof.
  intros P I N L E Nt. apply (proj2 (C66_observation c q m)). intros args A. destruct (C66_names c (qdims q) m args k data t P I N L E A) as (z & (i & _ & Hi) & _). apply Nt.
  destruct Hi as (Hi & _). exact (nth_error_In _ _ Hi).
Qed.

(** ** Values off the axis are assumed, and the axis is narrowed around them *)
Lemma turn_off c k data w l u ts t : lookup str_eqb (caxes c) k = Ok (ACoords data w) -> lookup str_eqb (caxes c) [] = Raise KeyError -> data <> [] ->
  in_axis_unit ueq uone convert w u l ts -> In t ts -> ~ on_axis data t ->
  turn c k (VMeas l u) = Ok (EBoth (PPos (These (map Z.of_nat (seq 0 (length data))))) (PAssume (HMeas l u))).
Proof using ueq_refl.
  intros L L0 NE X Ht Off. unfold ObservableProofs.turn. cbn [parse_user_arg]. rewrite L. cbn [axis_find]. rewrite (C30_coordinates_missing U ueq uone convert data w l u ts t ueq_refl NE X Ht Off). cbn [bind].
  unfold axis_slice, axis_all. rewrite map_length, seq_length.
  assert (S : slice_positions full_slice (length data) = Ok (seq 0 (length data))).
  { apply slice_positions_iff. constructor. apply full_slice_selects. }
  rewrite S. cbn [bind]. rewrite L0. cbn [bind]. rewrite pick_seq; [reflexivity|]. apply Forall_forall. intros p Hp. apply in_seq in Hp. clear - Hp. lia.
Qed.
Definition narrowed : list str := [s "time"; s "energy"; s "mu"].
Lemma implement_narrowed c k v i l u data w ts idx : In k narrowed -> turn c k v = Ok (EBoth i (PAssume (HMeas l u))) -> lookup str_eqb (caxes c) k = Ok (ACoords data w) ->
  with_unit ueq convert l u w = Ok ts -> restrict (G1 data) ts = Ok idx -> impl c [(k, v)] = Ok (mkargs [(k, PPos (These idx))] [(k, PAssume (HMeas l u))]).
Proof.
  intros I T L W R. unfold implement. cbn [implement_loop]. rewrite step_turn, T. cbn [bind perform fst snd dict_put].
  assert (Nk : narrow_axis ueq factor consistent c ([(k, i)], [(k, PAssume (HMeas l u))]) k = Ok ([(k, PPos (These idx))], [(k, PAssume (HMeas l u))])).
  { unfold narrow_axis. cbn [snd fst lookup]. rewrite str_eqb_refl, L. cbn [bind]. rewrite W. cbn [bind]. rewrite R. cbn [bind dict_put]. rewrite str_eqb_refl. reflexivity. }
  unfold narrowed in I. destruct I as [<-|[<-|[<-|[]]]].
  - rewrite Nk. cbn [bind]. rewrite (narrow_none c _ (s "energy")) by reflexivity. cbn [bind]. rewrite (narrow_none c _ (s "mu")) by reflexivity. cbn [bind]. rewrite narrow_shell_none by reflexivity. reflexivity.
  - rewrite (narrow_none c _ (s "time")) by reflexivity. cbn [bind]. rewrite Nk. cbn [bind]. rewrite (narrow_none c _ (s "mu")) by reflexivity. cbn [bind]. rewrite narrow_shell_none by reflexivity. reflexivity.
  - rewrite (narrow_none c _ (s "time")) by reflexivity. cbn [bind]. rewrite (narrow_none c _ (s "energy")) by reflexivity. cbn [bind]. rewrite Nk. cbn [bind]. rewrite narrow_shell_none by reflexivity. reflexivity.
Qed.
Lemma not_shell k : In k narrowed -> k <> s "shell".
Proof. intros [<-|[<-|[<-|[]]]]; discriminate. Qed.
Theorem C66_assumed c ds m args k data w l u ts t : proper_dims ds -> In k ds -> In k narrowed -> lookup str_eqb (caxes c) k = Ok (ACoords data w) -> lookup str_eqb (caxes c) [] = Raise KeyError ->
  data <> [] -> strictly_ascending data -> m k = VMeas l u -> ueq u uone = false -> in_axis_unit ueq uone convert w u l ts -> In t ts -> ~ on_axis data t -> asks c ds m args ->
  exists lo hi, indexed_by args k (stretch lo hi) /\ lo <= hi < length data /\ brackets [data] ts lo hi /\ tight [data] ts lo hi /\ assumes args k l u.
Proof using ueq_refl.
  intros P I K L L0 NE Sa E U1 X Ht Off A. assert (N := not_shell k K).
  destruct (C17_restrict_brackets_partial (G1 data) ts (length data)) as (lo & hi & R & Lh & Br & Ti).
  { split; [destruct data; [contradiction|cbn; lia]|]. split; [discriminate|]. intros row [<-|[]]. auto. }
  { intros ->. destruct Ht. }
  assert (W : with_unit ueq convert l u w = Ok ts).
  { unfold with_unit. inversion X as [V|V1 V2|f V1 V2 V3]; subst; [congruence|rewrite V2; reflexivity|rewrite V2, V3; reflexivity]. }
  destruct (asked_dim c ds m args k P I N A) as (a' & Im & E1 & E2). rewrite E in Im.
  rewrite (implement_narrowed c k _ _ l u data w ts _ K (turn_off c k data w l u ts t L L0 NE X Ht Off) L W R) in Im. injection Im as <-.
  exists lo, hi. unfold indexed_by, assumes. rewrite E1, E2. cbn [aindices aassumed lookup]. rewrite str_eqb_refl. split; [reflexivity|]. auto.
Qed.
(** A plain number is read in the unit of the axis if it is on the axis; but off
    the axis the observation raises an exception. *)
Theorem C66_plain_number_refuted c (q : quantity (U := U) (B := B)) m k data w l ts t : proper_dims (qdims q) -> In k (qdims q) -> In k narrowed ->
  lookup str_eqb (caxes c) k = Ok (ACoords data w) -> lookup str_eqb (caxes c) [] = Raise KeyError ->
  data <> [] -> ueq uone w = false -> factor uone w = None -> m k = VMeas l uone -> l = ts -> In t ts -> ~ on_axis data t ->
  exists e, at_constraints c q (under m (qdims q)) = Raise e.
Proof using ueq_refl.
  intros P I K L L0 NE U1 F E -> Ht Off. apply (proj2 (C66_observation c q m)). intros args A. destruct (asked_dim c (qdims q) m args k P I (not_shell k K) A) as (a' & Im & _). rewrite E in Im.
  assert (X : in_axis_unit ueq uone convert w uone ts ts) by (constructor; apply ueq_refl).
  pose proof (turn_off c k data w ts uone ts t L L0 NE X Ht Off) as T. unfold implement in Im. cbn [implement_loop] in Im. rewrite step_turn, T in Im. cbn [bind perform fst snd dict_put] in Im.
  set (st := (_, _)) in Im. assert (Nk : exists e, narrow_axis ueq factor consistent c st k = Raise e).
  { unfold narrow_axis, st. cbn [snd fst lookup]. rewrite str_eqb_refl, L. cbn [bind]. unfold with_unit. rewrite U1. unfold conversion_factor. rewrite F. destruct (consistent uone w); eexists; reflexivity. }
  destruct Nk as (e & Nk). unfold narrowed in K. destruct K as [<-|[<-|[<-|[]]]].
  - rewrite Nk in Im. discriminate.
  - rewrite (narrow_none c _ (s "time")) in Im by reflexivity. cbn [bind] in Im. rewrite Nk in Im. discriminate.
  - rewrite (narrow_none c _ (s "time")) in Im by reflexivity. cbn [bind] in Im. rewrite (narrow_none c _ (s "energy")) in Im by reflexivity. cbn [bind] in Im. rewrite Nk in Im. discriminate.
Qed.

(** ** Shells *)
Lemma shell_value v : constraints is_length [(s "shell", v)] = (kv <- shell_or_radius is_length v ;; Ok [kv]).
Proof.
  unfold constraints, shellless. cbn [lookup filter fst]. rewrite str_eqb_refl. cbn [negb]. destruct (shell_or_radius is_length v) as [[k w]|]; reflexivity.
Qed.
Lemma points_ok_list l : Forall (fun z => 0 <= z)%Z l -> points_of (U := U) l = Ok (VPoints l).
Proof. intros F. unfold points_of. replace (forallb _ l) with true; [reflexivity|]. symmetry. apply forallb_forall. intros z Hz. rewrite Forall_forall in F. apply Z.leb_le, F, Hz. Qed.
Lemma asked_shell c ds m args l : proper_dims ds -> In (s "shell") ds -> m (s "shell") = VIndex l -> asks c ds m args ->
  Forall (fun z => 0 <= z)%Z l /\ exists a', impl c [(s "shell", VPoints l)] = Ok a' /\
  lookup str_eqb (aindices args) (s "shell") = lookup str_eqb (aindices a') (s "shell") /\ lookup str_eqb (aassumed args) (s "shell") = lookup str_eqb (aassumed a') (s "shell").
Proof.
  intros P I E A. destruct (asked_one c ds m args (s "shell") P I A) as (user & a' & C & Im & Eq). rewrite E, shell_value in C. cbn [shell_or_radius] in C.
  unfold points_of in C. destruct (forallb (fun z => (0 <=? z)%Z) l) eqn:F; [|discriminate]. cbn [bind] in C. injection C as <-. split.
  - apply Forall_forall. intros z Hz. rewrite forallb_forall in F. apply Z.leb_le, F, Hz.
  - exists a'. split; [exact Im|]. apply Eq. left. reflexivity.
Qed.
Lemma points_request (l : list Z) : requested_points (OneList (map (fun z => TNum (zq z)) l)) (map zq l).
Proof. left. rewrite map_map. reflexivity. Qed.
Lemma pick_all {A} (l : list A) : pick l (seq 0 (length l)) = l.
Proof.
  assert (H : forall a b : list A, pick (a ++ b) (seq (length a) (length b)) = b).
  { intros a b. revert a. induction b as [|x b IH]; intros a; [reflexivity|]. cbn [length seq]. unfold pick. cbn [flat_map]. rewrite nth_error_app2, Nat.sub_diag by apply le_n. cbn [nth_error app].
    f_equal. specialize (IH (a ++ [x])). rewrite <- app_assoc, app_length in IH. cbn [app length] in IH. rewrite Nat.add_1_r in IH. exact IH. }
  exact (H [] l).
Qed.
(** shell numbers select the positions of the shells that have these numbers *)
Theorem C66_shells c ds m args data l : proper_dims ds -> In (s "shell") ds -> lookup str_eqb (caxes c) (s "shell") = Ok (APoints data) -> m (s "shell") = VIndex l ->
  Forall (fun z => In z data) l -> asks c ds m args ->
  exists zs p, answers zs p /\ Forall2 (first_position (map zq data)) (map zq l) zs /\ indexed_by args (s "shell") p /\ nothing_assumed args (s "shell").
Proof.
  intros P I L E F A. destruct (asked_shell c ds m args l P I E A) as (_ & a' & Im & E1 & E2).
  assert (exists zs, Forall2 (first_position (map zq data)) (map zq l) zs) as (zs & Fz).
  { clear - F. induction F as [|z l H F (zs & IH)]; [exists []; constructor|]. destruct (first_position_exists Qc_eq_dec (map zq data) (zq z)) as (p & Hp); [apply in_map, H|]. exists (p :: zs). constructor; assumption. }
  destruct (answer_exists zs) as (p & An). exists zs, p. split; [exact An|]. split; [exact Fz|].
  assert (T : turn c (s "shell") (VPoints l) = Ok (EIndex (PPos p))).
  { unfold ObservableProofs.turn. cbn [parse_user_arg]. rewrite L. cbn [axis_find]. rewrite (proj2 (C30_points data None _ (map zq l) p (points_request l))); [reflexivity|]. exists zs. auto. }
  rewrite (implement_indexed c _ _ _ T) in Im. injection Im as <-. unfold indexed_by, nothing_assumed. rewrite E1, E2. split; reflexivity.
Qed.
(** a number that is no shell's number selects every shell, without an error *)
Theorem C66_no_such_shell_refuted c ds m args data l z : proper_dims ds -> In (s "shell") ds -> lookup str_eqb (caxes c) (s "shell") = Ok (APoints data) -> lookup str_eqb (caxes c) [] = Raise KeyError ->
  m (s "shell") = VIndex l -> In z l -> ~ In z data -> asks c ds m args ->
  indexed_by args (s "shell") (These data) /\ assumes args (s "shell") (map zq l) uone.
Proof.
  intros P I L L0 E Hz Nz A. destruct (asked_shell c ds m args l P I E A) as (_ & a' & Im & E1 & E2).
  assert (T : turn c (s "shell") (VPoints l) = Ok (EBoth (PPos (These data)) (PAssume (HMeas (map zq l) uone)))).
  { unfold ObservableProofs.turn. cbn [parse_user_arg]. rewrite L. cbn [axis_find].
    rewrite (C30_points_missing data None _ (map zq l) (zq z) (points_request l)); [|apply in_map, Hz|intros H; apply in_map_iff in H as (y & Y & Hy); apply zq_inj in Y; subst; contradiction].
    cbn [bind]. unfold axis_slice, axis_all. rewrite (slice_positions_iff full_slice (length data) (seq 0 (length data))) by (constructor; apply full_slice_selects).
    cbn [bind]. rewrite L0. cbn [bind]. rewrite pick_all. reflexivity. }
  unfold implement in Im. cbn [implement_loop] in Im. rewrite step_turn, T in Im. cbn [bind perform fst snd dict_put] in Im.
  rewrite (narrow_none c _ (s "time")) in Im by reflexivity. cbn [bind] in Im. rewrite (narrow_none c _ (s "energy")) in Im by reflexivity. cbn [bind] in Im.
  rewrite (narrow_none c _ (s "mu")) in Im by reflexivity. cbn [bind] in Im. rewrite narrow_shell_none in Im by reflexivity. cbn [bind] in Im. injection Im as <-.
  unfold indexed_by, assumes. rewrite E1, E2. split; reflexivity.
Qed.
(** radii are assumed, and the shells narrowed around them at all times *)
Theorem C66_radius c ds m args l u ts n : proper_dims ds -> In (s "shell") ds -> lookup str_eqb (caxes c) (s "radius") = Raise KeyError ->
  m (s "shell") = VMeas l u -> is_length u = true -> with_unit ueq convert l u (cgrid_unit c) = Ok ts -> l <> [] -> proper_grid (G2 (cgrid c)) n -> asks c ds m args ->
  exists lo hi, indexed_by args (s "shell") (stretch lo hi) /\ lo <= hi < n /\ brackets (cgrid c) ts lo hi /\ tight (cgrid c) ts lo hi /\ assumes args (s "radius") l u.
Proof.
  intros P I L E Lu W NE G A. destruct (asked_one c ds m args (s "shell") P I A) as (user & a' & C & Im & Eq). rewrite E, shell_value in C. cbn [shell_or_radius] in C. rewrite Lu in C. cbn [bind] in C.
  assert (Hu : user = [(s "radius", VMeas l u)]) by (injection C as C; exact (eq_sym C)). clear C. subst user.
  destruct (C17_restrict_brackets_partial (G2 (cgrid c)) ts n G) as (lo & hi & R & Lh & Br & Ti).
  { intros ->. unfold with_unit in W. destruct (ueq u (cgrid_unit c)); [congruence|]. destruct (conversion_factor factor consistent u (cgrid_unit c)); [|discriminate]. cbn [bind] in W. injection W as W. destruct l; [contradiction|discriminate]. }
  assert (T : turn c (s "radius") (VMeas l u) = Ok (EAssume (PAssume (HMeas l u)))).
  { unfold ObservableProofs.turn. cbn [parse_user_arg]. rewrite L. reflexivity. }
  unfold implement in Im. cbn [implement_loop] in Im. rewrite step_turn, T in Im. cbn [bind perform fst snd dict_put] in Im.
  rewrite (narrow_none c _ (s "time")) in Im by reflexivity. cbn [bind] in Im. rewrite (narrow_none c _ (s "energy")) in Im by reflexivity. cbn [bind] in Im.
  rewrite (narrow_none c _ (s "mu")) in Im by reflexivity. cbn [bind] in Im. unfold narrow_shell in Im. cbn [snd fst lookup] in Im. rewrite str_eqb_refl in Im. rewrite W in Im. cbn [bind] in Im. rewrite R in Im. cbn [bind dict_put fst snd] in Im. injection Im as <-.
  exists lo, hi. destruct (Eq (s "shell") (or_introl eq_refl)) as (E1 & _). destruct (Eq (s "radius") (or_intror (conj eq_refl eq_refl))) as (_ & E2).
  unfold indexed_by, assumes. rewrite E1, E2. split; [reflexivity|]. split; [exact Lh|]. split; [exact Br|]. split; [exact Ti|reflexivity].
Qed.
End C66.
