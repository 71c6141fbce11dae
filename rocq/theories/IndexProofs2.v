From Verif Require Import PyBase PyLemmas ContainerModel ContainerSpec ContainerProofs ContainerProofs2 Nd IndexModel IndexSpec IndexProofs SymbolicTotal.
From Coq Require Import Sorted.
#[local] Open Scope nat_scope.

(** ** Slices *)
Lemma range_down_enum fuel : forall i stop step, (step < 0)%Z -> Z.to_nat (i - stop) <= fuel ->
  enumerates (range_down fuel i stop step) i stop step.
Proof.
  induction fuel as [|f IH]; intros i stop step S F.
  - split; [intros [|k] p E; discriminate|]. intros k. simpl. destruct (Z.ltb_spec 0 step); [lia|]. nia.
  - simpl. destruct (Z.ltb_spec stop i) as [L|L].
    + destruct (IH (i + step)%Z stop step S ltac:(lia)) as (N & K). split.
      * intros [|k] p E; simpl in E; [injection E as <-; lia|]. rewrite (N _ _ E). lia.
      * intros [|k]; cbn [length].
        { destruct (Z.ltb_spec 0 step); lia. }
        specialize (K k). destruct (Z.ltb_spec 0 step); [lia|].
        replace (i + Z.of_nat (Datatypes.S k) * step)%Z with (i + step + Z.of_nat k * step)%Z by (rewrite Nat2Z.inj_succ; ring).
        rewrite <- K. lia.
    + split; [intros [|k] p E; discriminate|]. intros k. simpl. destruct (Z.ltb_spec 0 step); [lia|]. nia.
Qed.
Lemma range_list_enum i stop step : step <> 0%Z -> enumerates (range_list i stop step) i stop step.
Proof.
  intros N. destruct (Z_lt_le_dec 0 step) as [S|S]; [apply range_list_up, S|].
  unfold range_list. destruct (Z.ltb_spec 0 step); [lia|]. apply range_down_enum; lia.
Qed.
Lemma enumerates_nonneg l a b st : enumerates l a b st -> (if (0 <? st)%Z then 0 <= a else -1 <= b)%Z ->
  map Z.of_nat (map Z.to_nat l) = l.
Proof.
  intros (N & K) H. rewrite map_map. rewrite <- (map_id l) at 2. apply map_ext_in. intros z I.
  apply In_nth_error in I as (k & E). pose proof (N _ _ E) as ->.
  assert (L : k < length l) by (apply nth_error_Some; congruence). apply K in L.
  destruct (Z.ltb_spec 0 st); rewrite Z2Nat.id; nia.
Qed.
Lemma slice_positions_selects sl n p : slice_positions sl n = Ok p -> selects (sl_start sl) (sl_stop sl) (sl_step sl) (Z.of_nat n) (map Z.of_nat p).
Proof.
  unfold slice_positions. intros H.
  destruct (Z.eqb_spec (slice_step sl) 0) as [E|E]; [discriminate|]. injection H as <-. unfold selects.
  change (match sl_step sl with Some z => z | None => 1%Z end) with (slice_step sl). split; [exact E|].
  match goal with |- enumerates (map Z.of_nat (map Z.to_nat (range_list ?a ?b _))) _ _ _ =>
    assert (A : a = slice_first (sl_start sl) (slice_step sl) (Z.of_nat n)); [|assert (B : b = slice_last (sl_stop sl) (slice_step sl) (Z.of_nat n))] end.
  - unfold slice_first, clamp, from_end. destruct (sl_start sl); destruct (0 <? slice_step sl)%Z; reflexivity.
  - unfold slice_last, clamp, from_end. destruct (sl_stop sl); destruct (0 <? slice_step sl)%Z; reflexivity.
  - rewrite A, B. rewrite (enumerates_nonneg _ _ _ _ (range_list_enum _ _ _ E)).
    + apply range_list_enum, E.
    + unfold slice_first, slice_last, clamp, from_end. destruct (sl_start sl), (sl_stop sl); destruct (Z.ltb_spec 0 (slice_step sl)); lia.
Qed.
Lemma slice_positions_defined sl n : slice_step sl <> 0%Z -> exists p, slice_positions sl n = Ok p.
Proof. intros H. unfold slice_positions. destruct (Z.eqb_spec (slice_step sl) 0); [congruence|]. eexists; reflexivity. Qed.
Lemma map_of_nat_inj p q : map Z.of_nat p = map Z.of_nat q -> p = q.
Proof. revert q. induction p as [|x p IH]; intros [|y q] H; simpl in H; try discriminate; [reflexivity|]. injection H as H1 H2. f_equal; [lia|apply IH, H2]. Qed.
Lemma slice_positions_iff sl n p : selects_axis (SSlice sl) n p -> slice_positions sl n = Ok p.
Proof.
  intros H. inversion H as [| | |? ? ? S|]; subst. destruct (slice_positions_defined sl n) as (q & Q).
  { destruct S as (N & _). exact N. }
  rewrite Q. f_equal. apply slice_positions_selects in Q. destruct Q as (_ & Q), S as (_ & S).
  apply map_of_nat_inj. eapply enumerates_unique; [exact Q|exact S].
Qed.

(** ** Integers *)
Lemma norm_index_iff z n p : selects_axis (SInt z) n p -> exists i, p = [i] /\ norm_index n z = Some i /\ i < n.
Proof.
  intros H. inversion H; subst; unfold norm_index.
  - exists (Z.to_nat z). destruct (Z.ltb_spec z 0); [lia|]. destruct (Z.ltb_spec z 0); [lia|]. destruct (Z.leb_spec (Z.of_nat n) z); [lia|].
    repeat split; lia.
  - exists (Z.to_nat (z + Z.of_nat n)). destruct (Z.ltb_spec z 0); [|lia]. destruct (Z.ltb_spec (z + Z.of_nat n) 0); [lia|].
    destruct (Z.leb_spec (Z.of_nat n) (z + Z.of_nat n)); [lia|]. repeat split; lia.
Qed.
Lemma norm_list_iff l n p : selects_axis (SSeq l) n p -> norm_list n l = Some p.
Proof.
  intros H. inversion H as [| | | |? ? ? F]; subst. clear H. induction F as [|z k l p HS F IH]; [reflexivity|].
  simpl. destruct (norm_index_iff _ _ _ HS) as (i & E & -> & _). injection E as ->. rewrite IH. reflexivity.
Qed.

(** ** The open mesh *)
Lemma norm_list_seq n m : m <= n -> norm_list n (map Z.of_nat (seq 0 m)) = Some (seq 0 m).
Proof.
  intros L. assert (G : forall a k, a + k <= n -> norm_list n (map Z.of_nat (seq a k)) = Some (seq a k)).
  { intros a k. revert a. induction k as [|k IH]; intros a H; [reflexivity|]. cbn [seq map norm_list].
    rewrite IH by lia. unfold norm_index. destruct (Z.ltb_spec (Z.of_nat a) 0); [lia|].
    destruct (Z.ltb_spec (Z.of_nat a) 0); [lia|]. destruct (Z.leb_spec (Z.of_nat n) (Z.of_nat a)); [lia|]. rewrite Nat2Z.id. reflexivity. }
  apply G. lia.
Qed.
(** every slice selects its whole axis *)
Definition whole_slices (l : list sub) (sh : list nat) : Prop :=
  forall i sl n, nth_error l i = Some (SSlice sl) -> nth_error sh i = Some n -> selects_axis (SSlice sl) n (seq 0 n).
Lemma whole_tail x l n sh : whole_slices (x :: l) (n :: sh) -> whole_slices l sh.
Proof. intros H i sl m E1 E2. apply (H (S i) sl m E1 E2). Qed.
Lemma selects_slice_unique sl n p q : selects_axis (SSlice sl) n p -> selects_axis (SSlice sl) n q -> p = q.
Proof. intros H1 H2. apply slice_positions_iff in H1, H2. congruence. Qed.
Lemma mesh_selects l sh ps : selects_axes l sh ps -> whole_slices l sh ->
  exists ls, mesh_of sh l = Ok ls /\ norm_mesh sh ls = Some ps /\ (l <> [] -> ls <> []).
Proof.
  intros H. induction H as [sh|x xs n sh p ps HS HA IH]; intros W.
  - exists []. split; [reflexivity|]. split; [destruct sh; reflexivity|congruence].
  - destruct (IH (whole_tail _ _ _ _ W)) as (ls & M & N & _). simpl. rewrite M. simpl.
    destruct x as [z|z|sl| | |l]; try solve [inversion HS].
    + exists ([z] :: ls). split; [reflexivity|]. split; [|discriminate]. simpl. destruct (norm_index_iff _ _ _ HS) as (i & -> & -> & _). rewrite N. reflexivity.
    + inversion HS as [| |? ? ? HS'| |]; subst. exists ([z] :: ls). split; [reflexivity|]. split; [|discriminate]. simpl. destruct (norm_index_iff _ _ _ HS') as (i & -> & -> & _). rewrite N. reflexivity.
    + exists (map Z.of_nat (seq 0 n) :: ls). split; [reflexivity|]. split; [|discriminate]. simpl. rewrite norm_list_seq by lia. rewrite N.
      rewrite (selects_slice_unique _ _ _ _ HS (W 0 sl n eq_refl eq_refl)). reflexivity.
    + exists (l :: ls). split; [reflexivity|]. split; [|discriminate]. simpl. rewrite (norm_list_iff _ _ _ HS), N. reflexivity.
Qed.
Lemma pick_picks ps ix jx : picks ps ix jx -> pick ps ix = jx.
Proof. induction 1 as [|p ps i ix j jx E P IH]; [reflexivity|]. simpl. rewrite IH. f_equal. apply nth_error_nth, E. Qed.
Lemma selects_axes_length l sh ps : selects_axes l sh ps -> length ps = length sh /\ length l <= length sh.
Proof. induction 1 as [sh|x xs n sh p ps HS HA (IH & IH')]; [rewrite map_length; simpl; lia|]. simpl. lia. Qed.
Lemma ndmin_same {A} (a : nd A) n : ndim a = n -> shape (nd_ndmin n a) = shape a /\ forall ix, elem (nd_ndmin n a) ix = elem a ix.
Proof. intros <-. unfold nd_ndmin. rewrite Nat.sub_diag. simpl. auto. Qed.
Lemma nd_mesh_block {A} (a : nd A) ls ps : norm_mesh (shape a) ls = Some ps -> length ps = ndim a ->
  exists r, nd_mesh ls a = Ok r /\ sub_block a ps (nd_ndmin (ndim a) r).
Proof.
  intros N L. unfold nd_mesh. rewrite N. eexists; split; [reflexivity|].
  match goal with |- sub_block a ps (nd_ndmin _ ?m) => destruct (ndmin_same m (ndim a)) as (E1 & E2); [unfold ndim; simpl; rewrite map_length; exact L|] end.
  split; [rewrite E1; reflexivity|]. intros ix jx P. rewrite E2. simpl. rewrite (pick_picks _ _ _ P). reflexivity.
Qed.
Lemma selects_no_ell l sh ps : selects_axes l sh ps -> no_ell l.
Proof. induction 1 as [sh|x xs n sh p ps HS HA IH]; intros I; [destruct I|]. destruct I as [->|I]; [inversion HS|exact (IH I)]. Qed.
Lemma getitem_mesh {A} (a : nd A) l ps : selects_axes l (shape a) ps -> whole_slices l (shape a) ->
  (exists x, In x l /\ is_builtin x = false) ->
  forall args, (args = ATuple l \/ args = AList l \/ exists x, l = [x] /\ args = ASub x) -> exists r, array_getitem a args = Ok r /\ sub_block a ps r.
Proof.
  intros H W (x & I & B) args AR.
  assert (R : resolve (shape a) args = (m <- mesh_of (shape a) l ;; Ok (NMesh m))).
  { assert (Nz : is_normalized args = false).
    { destruct AR as [-> |[-> |(y & -> & ->)]]; [simpl|reflexivity|destruct I as [-> |[]]; exact B].
      destruct (forallb is_builtin l) eqn:E; [|reflexivity].
      rewrite forallb_forall in E. rewrite (E _ I) in B. discriminate. }
    unfold resolve, normalize. rewrite Nz.
    replace (match args with ASub x0 => [x0] | ATuple l0 | AList l0 => l0 | AArray l0 => [SSeq l0] end) with l by (destruct AR as [-> |[-> |(y & -> & ->)]]; reflexivity).
    rewrite expand_none; [|eapply selects_no_ell; eauto|apply selects_axes_length in H; tauto]. simpl.
    destruct (mesh_of (shape a) l); reflexivity. }
  unfold array_getitem. rewrite R. destruct (mesh_selects _ _ _ H W) as (ls & -> & N & NE). simpl.
  destruct (nd_mesh_block a ls ps N) as (r & -> & SB); [apply selects_axes_length in H; unfold ndim; tauto|].
  destruct ls as [|l0 ls]; [exfalso; apply NE; [intros ->; destruct I|reflexivity]|]. simpl. eauto.
Qed.

(** ** Basic subscripts *)
Definition builtin_subs (l : list sub) : Prop := forall x, In x l -> match x with SInt _ | SSlice _ => True | _ => False end.
(** the members of [l] for the axes that are kept, i.e. not under an integer *)
Fixpoint keep (l : list sub) {T} (v : list T) : list T :=
  match l, v with
  | SInt _ :: l', _ :: v' => keep l' v'
  | _ :: l', x :: v' => x :: keep l' v'
  | [], v => v
  | _, [] => []
  end.
Lemma builtin_tail x l : builtin_subs (x :: l) -> builtin_subs l.
Proof. intros H y I. apply H. right. exact I. Qed.
Lemma picks_whole sh : forall ix jx, picks (map (fun n => seq 0 n) sh) ix jx -> ix = jx.
Proof.
  induction sh as [|m sh IH]; intros ix jx P; simpl in P.
  - inversion P. reflexivity.
  - inversion P as [|p ps i ix' j jx' E P']; subst. f_equal; [|apply IH, P'].
    assert (i < m) by (rewrite <- (seq_length m 0); apply nth_error_Some; congruence).
    rewrite (nth_error_nth' _ 0) in E by (rewrite seq_length; lia). rewrite seq_nth in E by lia. injection E as <-. reflexivity.
Qed.
Lemma basics_selects l sh ps : selects_axes l sh ps -> builtin_subs l ->
  exists bs, basics sh l = Ok bs /\ basic_shape sh bs = Some (map (@length nat) (keep l ps)) /\
    (forall ix jx, picks ps ix jx -> basic_index sh bs (keep l ix) = jx).
Proof.
  intros H. induction H as [sh|x xs n sh p ps HS HA IH]; intros B.
  - exists []. split; [reflexivity|]. split.
    + destruct sh; simpl; [reflexivity|]. rewrite seq_length. rewrite map_map. f_equal. f_equal. rewrite <- (map_id sh) at 1. apply map_ext. intros. rewrite seq_length. reflexivity.
    + intros ix jx P. apply picks_whole in P. subst jx. destruct sh; reflexivity.
  - destruct (IH (builtin_tail _ _ B)) as (bs & E1 & E2 & E3). simpl. rewrite E1. simpl.
    destruct x as [z|z|sl| | |l]; try solve [exfalso; apply (B _ (or_introl eq_refl))].
    + exists (BInt z :: bs). split; [reflexivity|]. destruct (norm_index_iff _ _ _ HS) as (i & -> & Hi & _). simpl. rewrite Hi. split; [exact E2|].
      intros ix jx P. inversion P as [|? ? i' ix' j jx' E P']; subst. simpl. destruct i'; [|destruct i'; discriminate]. injection E as <-. f_equal. apply E3, P'.
    + rewrite (slice_positions_iff _ _ _ HS). exists (BList p :: bs). split; [reflexivity|]. simpl. rewrite E2. split; [reflexivity|].
      intros ix jx P. inversion P as [|? ? i' ix' j jx' E P']; subst. simpl. f_equal; [apply nth_error_nth, E|apply E3, P'].
Qed.

(** ** Reshaping *)
Lemma unravel_ravel sh : forall ix, valid ix sh -> unravel sh (ravel sh ix) = ix /\ ravel sh ix < prod sh.
Proof.
  induction sh as [|n sh IH]; intros ix V; inversion V as [|i ? ix' ? L V']; subst.
  - split; [reflexivity|]. simpl. lia.
  - destruct (IH _ V') as (U & R). simpl. fold (prod sh). set (m := prod sh) in *.
    assert (Hm : m <> 0) by lia. split.
    + rewrite Nat.div_add_l by exact Hm. rewrite (Nat.div_small _ m R), Nat.add_0_r.
      rewrite Nat.add_comm, Nat.mod_add by exact Hm. rewrite (Nat.mod_small _ m R), U. reflexivity.
    + nia.
Qed.
Lemma unravel_ones k sh m : m < prod sh -> unravel (repeat 1 k ++ sh) m = repeat 0 k ++ unravel sh m.
Proof.
  intros H. induction k as [|k IH]; [reflexivity|]. simpl. fold (prod (repeat 1 k ++ sh)).
  assert (P : prod (repeat 1 k ++ sh) = prod sh). { clear. induction k as [|k IH]; [reflexivity|]. simpl. fold (prod (repeat 1 k ++ sh)). lia. }
  rewrite P. rewrite Nat.div_small, Nat.mod_small by exact H. rewrite IH. reflexivity.
Qed.
Lemma skipn_repeat_app {A} (x : A) k l : skipn k (repeat x k ++ l) = l.
Proof. induction k; simpl; auto. Qed.
Lemma picks_valid ps ix jx : picks ps ix jx -> valid ix (map (@length nat) ps).
Proof. induction 1; constructor; [apply nth_error_Some; congruence|assumption]. Qed.
Lemma keep_valid l sh ps ix jx : selects_axes l sh ps -> picks ps ix jx ->
  valid (keep l ix) (map (@length nat) (keep l ps)) /\
  ravel (map (@length nat) ps) ix = ravel (map (@length nat) (keep l ps)) (keep l ix) /\
  prod (map (@length nat) ps) = prod (map (@length nat) (keep l ps)).
Proof.
  intros H. revert ix jx. induction H as [sh|x xs n sh p ps HS HA IH]; intros ix jx P.
  - split; [eapply picks_valid; exact P|]. split; reflexivity.
  - inversion P as [|? ? i ix' j jx' E P']; subst. destruct (IH _ _ P') as (V & R & Q).
    assert (Hi : i < length p) by (apply nth_error_Some; congruence).
    assert (D : (exists z, x = SInt z) \/ (forall T (v : T) vs, keep (x :: xs) (v :: vs) = v :: keep xs vs)).
    { destruct x; simpl; auto. left; eauto. }
    destruct D as [(z & ->)|D].
    + destruct (norm_index_iff _ _ _ HS) as (i0 & -> & _). simpl in *. destruct i; [|lia]. unfold prod in *. simpl. rewrite R, Q. split; [exact V|]. split; lia.
    + rewrite !D. simpl. split; [constructor; [exact Hi|exact V]|]. unfold prod in Q. simpl. rewrite R. unfold prod. simpl. rewrite Q. split; reflexivity.
Qed.
(** ** prod depends only on lengths, also for empty blocks *)
Lemma keep_prod l sh ps : selects_axes l sh ps -> prod (map (@length nat) ps) = prod (map (@length nat) (keep l ps)).
Proof.
  induction 1 as [sh|x xs n sh p ps HS HA IH]; [reflexivity|].
  assert (D : (exists z, x = SInt z) \/ (forall T (v : T) vs, keep (x :: xs) (v :: vs) = v :: keep xs vs)).
  { destruct x; simpl; auto. left; eauto. }
  destruct D as [(z & ->)|D].
  - destruct (norm_index_iff _ _ _ HS) as (i0 & -> & _). simpl. unfold prod in *. simpl. lia.
  - rewrite D. unfold prod in *. simpl. lia.
Qed.
Lemma keep_length l {T} (v : list T) : length (keep l v) <= length v.
Proof.
  revert v. induction l as [|x l IH]; intros [|y v]; simpl; try lia; [destruct x; simpl; lia|].
  specialize (IH v). destruct x; simpl; lia.
Qed.
(** every slice has the length that [_get_axis_size] computes *)
Definition plain_slices (l : list sub) (sh : list nat) (ps : list (list nat)) : Prop :=
  forall i sl n p, nth_error l i = Some (SSlice sl) -> nth_error sh i = Some n -> nth_error ps i = Some p ->
    (or_z (sl_stop sl) (Z.of_nat n) - or_z (sl_start sl) 0)%Z = Z.of_nat (length p).
Lemma axis_sizes_plain pre l sh ps : selects_axes l sh ps -> builtin_subs l -> length l = length sh -> plain_slices l sh ps ->
  axis_sizes (pre ++ sh) (length pre) l = Ok (map (fun p => Z.of_nat (length p)) ps).
Proof.
  intros H. revert pre. induction H as [sh|x xs n sh p ps HS HA IH]; intros pre B L P.
  - destruct sh; [reflexivity|discriminate].
  - cbn [axis_sizes]. unfold get_axis_size. rewrite nth_error_app2, Nat.sub_diag by lia. cbn [nth_error].
    assert (T : axis_sizes (pre ++ n :: sh) (S (length pre)) xs = Ok (map (fun p => Z.of_nat (length p)) ps)).
    { replace (pre ++ n :: sh) with ((pre ++ [n]) ++ sh) by (rewrite <- app_assoc; reflexivity).
      replace (S (length pre)) with (length (pre ++ [n])) by (rewrite app_length; simpl; lia).
      apply IH; [eapply builtin_tail; eauto|simpl in L; lia|]. intros i sl m q E1 E2 E3. apply (P (S i) sl m q E1 E2 E3). }
    rewrite T.
    destruct x as [z|z|sl| | |l]; try solve [exfalso; apply (B _ (or_introl eq_refl))].
    + destruct (norm_index_iff _ _ _ HS) as (i0 & -> & _). reflexivity.
    + cbn [bind]. rewrite (P 0 sl n p eq_refl eq_refl eq_refl). reflexivity.
Qed.
Lemma filter_all {A} (f : A -> bool) l : (forall x, In x l -> f x = true) -> filter f l = l.
Proof. induction l as [|x l IH]; intros H; [reflexivity|]. simpl. rewrite (H x (or_introl eq_refl)). f_equal. apply IH. intros; apply H; simpl; auto. Qed.
Lemma filter_none {A} (f : A -> bool) l : (forall x, In x l -> f x = false) -> filter f l = [].
Proof. induction l as [|x l IH]; intros H; [reflexivity|]. simpl. rewrite (H x (or_introl eq_refl)). apply IH. intros; apply H; simpl; auto. Qed.
Lemma reshape_plain {A} (a : nd A) (ns : list nat) : prod ns = nd_size a ->
  nd_reshape (map Z.of_nat ns) a = Ok (mknd ns (fun ix => elem a (unravel (shape a) (ravel ns ix)))).
Proof.
  intros H. unfold nd_reshape.
  rewrite (filter_none (fun z => (z <? 0)%Z)) by (intros z I; apply in_map_iff in I as (k & <- & _); destruct (Z.ltb_spec (Z.of_nat k) 0); [lia|reflexivity]).
  rewrite (filter_all (fun z => (0 <=? z)%Z)) by (intros z I; apply in_map_iff in I as (k & <- & _); destruct (Z.leb_spec 0 (Z.of_nat k)); [reflexivity|lia]).
  assert (E : map Z.to_nat (map Z.of_nat ns) = ns). { rewrite map_map. rewrite <- (map_id ns) at 2. apply map_ext. intros. apply Nat2Z.id. }
  rewrite E. rewrite H, Nat.eqb_refl. reflexivity.
Qed.
Lemma builtin_normalized l : builtin_subs l -> is_normalized (ATuple l) = true /\ existsb is_ell l = false.
Proof.
  intros B. split.
  - apply forallb_forall. intros x I. specialize (B x I). destruct x; try tauto; reflexivity.
  - destruct (existsb is_ell l) eqn:E; [|reflexivity]. apply existsb_exists in E as (x & I & E). specialize (B x I). destruct x; try tauto; discriminate.
Qed.
Lemma getitem_basic {A} (a : nd A) l ps : selects_axes l (shape a) ps -> builtin_subs l -> length l = ndim a ->
  plain_slices l (shape a) ps \/ (forall z, ~ In (SInt z) l) ->
  exists r, array_getitem a (ATuple l) = Ok r /\ sub_block a ps r.
Proof.
  intros H B L C. destruct (builtin_normalized l B) as (Nz & NE).
  assert (R : resolve (shape a) (ATuple l) = Ok (NSame (ATuple l))).
  { unfold resolve, normalize. rewrite Nz. cbn [bind]. rewrite NE. reflexivity. }
  unfold array_getitem. rewrite R. cbn [bind].
  destruct l as [|x0 l0] eqn:El.
  { exists a. split; [reflexivity|]. inversion H as [sh E1 E2|]; subst. destruct (shape a) eqn:Es; [|unfold ndim in L; rewrite Es in L; discriminate].
    split; [exact Es|]. intros ix jx P. inversion P. reflexivity. }
  rewrite <- El in *. clear El x0 l0.
  destruct (basics_selects _ _ _ H B) as (bs & E1 & E2 & E3). unfold numpy_getitem. rewrite E1. cbn [bind].
  unfold nd_basic. rewrite E2. cbn [bind].
  set (loaded := mknd (map (@length nat) (keep l ps)) (fun ix => elem a (basic_index (shape a) bs ix))).
  assert (LP : length ps = ndim a) by (apply selects_axes_length in H; unfold ndim; tauto).
  assert (SZ : prod (map (@length nat) ps) = nd_size (nd_ndmin (ndim a) loaded)).
  { unfold nd_size, nd_ndmin. simpl. rewrite (keep_prod _ _ _ H). fold (prod (repeat 1 (ndim a - ndim loaded) ++ map (@length nat) (keep l ps))).
    induction (ndim a - ndim loaded) as [|k IH]; [reflexivity|]. simpl. fold (prod (repeat 1 k ++ map (@length nat) (keep l ps))). lia. }
  destruct (Nat.eqb_spec (ndim loaded) (ndim a)) as [E|E]; cbn [negb].
  - (* no integer *)
    eexists; split; [reflexivity|]. destruct (ndmin_same loaded (ndim a) E) as (S1 & S2).
    assert (K : forall T (v : list T), length v = length l -> keep l v = v).
    { assert (NI : length (keep l ps) = length ps) by (unfold ndim, loaded in E; simpl in E; rewrite map_length in E; rewrite E; unfold ndim in LP; congruence).
      assert (LL : length ps = length l) by lia. clear - NI LL. revert ps NI LL. induction l as [|x l IH]; intros ps NI LL T v Lv; [reflexivity|].
      destruct v as [|w v]; [discriminate|]. destruct ps as [|p ps]; [discriminate|].
      destruct x; simpl in *; try (pose proof (keep_length l ps); lia); f_equal; apply (IH ps); lia. }
    split.
    + rewrite S1. unfold loaded. simpl. rewrite (K _ ps) by lia. reflexivity.
    + intros ix jx P. rewrite S2. unfold loaded. simpl. rewrite <- (E3 _ _ P). f_equal. f_equal. symmetry. apply K.
      rewrite L, <- LP. clear - P. induction P; simpl; lia.
  - destruct C as [C|C].
    + pose proof (axis_sizes_plain [] _ _ _ H B L C) as AS. simpl in AS. rewrite AS. cbn [bind].
      replace (map (fun p : list nat => Z.of_nat (length p)) ps) with (map Z.of_nat (map (@length nat) ps)) by (rewrite map_map; reflexivity).
      rewrite reshape_plain by exact SZ. eexists; split; [reflexivity|]. split; [reflexivity|].
      intros ix jx P. cbn [elem]. destruct (keep_valid _ _ _ _ _ H P) as (V & RV & _). rewrite RV.
      destruct (unravel_ravel _ _ V) as (U & Lt). unfold nd_ndmin. cbn [shape elem]. change (shape loaded) with (map (@length nat) (keep l ps)).
      rewrite (unravel_ones _ _ _ Lt), U, skipn_repeat_app. unfold loaded. cbn [elem]. rewrite (E3 _ _ P). reflexivity.
    + exfalso. apply E. unfold loaded, ndim. simpl. rewrite map_length. rewrite <- LP in *.
      assert (G : length (keep l ps) = length ps); [|unfold ndim in LP; lia].
      assert (LL : length l = length ps) by lia. clear - C LL B. revert ps LL. induction l as [|x l IH]; intros ps LL; [reflexivity|].
      destruct ps as [|p ps]; [discriminate|]. assert (Ct : forall z, ~ In (SInt z) l) by (intros z I; apply (C z); right; exact I).
      destruct x; simpl; try (rewrite IH; [reflexivity|eapply builtin_tail; eauto|exact Ct|simpl in LL; lia]). exfalso. apply (C z). left. reflexivity.
Qed.

(** ** One subscript without a tuple *)
Lemma getitem_single {A} (a : nd A) x ps : selects_axes [x] (shape a) ps -> exists r, array_getitem a (ASub x) = Ok r /\ sub_block a ps r.
Proof.
  intros H. destruct (is_builtin x) eqn:Bx.
  2:{ apply (getitem_mesh a [x] ps H); [|exists x; simpl; auto|right; right; eauto].
      intros [|i] sl n E; [injection E as ->; discriminate|destruct i; discriminate]. }
  assert (B : builtin_subs [x]).
  { intros y [<-|[]]. inversion H as [|? ? ? ? ? ? HS]; subst. destruct x; simpl in *; try discriminate; try exact I; inversion HS. }
  assert (NE : x <> SEll) by (intros ->; inversion H as [|? ? ? ? ? ? HS]; inversion HS).
  assert (R : resolve (shape a) (ASub x) = Ok (NSame (ASub x))).
  { unfold resolve, normalize. simpl is_normalized. rewrite Bx. reflexivity. }
  unfold array_getitem. rewrite R. cbn [bind].
  destruct (basics_selects _ _ _ H B) as (bs & E1 & E2 & E3).
  assert (L : numpy_getitem a [x] = Ok (mknd (map (@length nat) (keep [x] ps)) (fun ix => elem a (basic_index (shape a) bs ix)))).
  { unfold numpy_getitem. rewrite E1. cbn [bind]. unfold nd_basic. rewrite E2. reflexivity. }
  rewrite L. cbn [bind].
  set (loaded := mknd (map (@length nat) (keep [x] ps)) (fun ix => elem a (basic_index (shape a) bs ix))).
  assert (LP : length ps = ndim a) by (apply selects_axes_length in H; unfold ndim; tauto).
  destruct ps as [|p ps]; [inversion H|].
  exists (nd_ndmin (ndim a) loaded). split; [destruct x; try congruence; reflexivity|].
  inversion H as [|? ? n sh ? ? HS HA Esh]; subst.
  destruct x as [z|z|sl| | |l]; try solve [exfalso; apply (B _ (or_introl eq_refl))].
  - destruct (norm_index_iff _ _ _ HS) as (i & -> & _).
    assert (K : ndim a - ndim loaded = 1). { unfold loaded, ndim in *. simpl in *. rewrite map_length. lia. }
    split.
    + unfold nd_ndmin. cbn [shape]. rewrite K. reflexivity.
    + intros ix jx P. unfold nd_ndmin. cbn [elem]. rewrite K. rewrite <- (E3 _ _ P).
      inversion P as [|? ? i' ix' j jx' E P']; subst. reflexivity.
  - destruct (ndmin_same loaded (ndim a)) as (S1 & S2).
    { unfold loaded, ndim in *. simpl in *. rewrite map_length. lia. }
    split.
    + rewrite S1. reflexivity.
    + intros ix jx P. rewrite S2. rewrite <- (E3 _ _ P). inversion P; subst. reflexivity.
Qed.
Lemma getitem_array {A} (a : nd A) l ps : selects_axes [SSeq l] (shape a) ps -> exists r, array_getitem a (AArray l) = Ok r /\ sub_block a ps r.
Proof.
  intros H. destruct (mesh_selects _ _ _ H) as (ls & M & N & _).
  { intros [|i] sl n E; [discriminate|destruct i; discriminate]. }
  inversion H as [|? ? n sh p ps' HS HA E1 E2]; subst. rewrite <- E2 in M. simpl in M. injection M as <-.
  unfold array_getitem. cbn [resolve normalize is_normalized bind].
  destruct (nd_mesh_block a [l] _ N) as (r & -> & SB); [apply selects_axes_length in H; unfold ndim; tauto|].
  simpl. eauto.
Qed.
(** ** An ellipsis stands for whole slices *)
Lemma existsb_ell_app pre post : existsb is_ell (pre ++ SEll :: post) = true.
Proof. apply existsb_exists. exists SEll. split; [apply in_or_app; right; left; reflexivity|reflexivity]. Qed.
Lemma no_ell_existsb l : no_ell l -> existsb is_ell l = false.
Proof. intros H. destruct (existsb is_ell l) eqn:E; [|reflexivity]. apply existsb_exists in E as (x & I & E). apply is_ell_true in E. subst. exfalso. exact (H I). Qed.
Lemma getitem_ellipsis {A} (a : nd A) pre post : no_ell pre -> no_ell post ->
  (length pre + length post < ndim a \/ (length pre <= ndim a /\ post = [])) ->
  array_getitem a (ATuple (pre ++ SEll :: post)) =
  array_getitem a (ATuple (pre ++ repeat (SSlice full_slice) (ndim a - (length pre + length post)) ++ post)).
Proof.
  intros H1 H2 L. unfold array_getitem.
  set (full := repeat (SSlice full_slice) (ndim a - (length pre + length post))).
  assert (NF : no_ell (pre ++ full ++ post)).
  { intros I. apply in_app_or in I as [I|I]; [exact (H1 I)|]. apply in_app_or in I as [I|I]; [|exact (H2 I)]. apply repeat_spec in I. discriminate. }
  assert (LF : length (pre ++ full ++ post) = ndim a) by (unfold full; rewrite !app_length, repeat_length; destruct L as [L|[L ->]]; simpl; lia).
  assert (EX : expand_ellipsis (length (shape a)) (pre ++ SEll :: post) = Ok (pre ++ full ++ post)).
  { rewrite expand_one by assumption. destruct (Nat.ltb_spec (length (shape a)) (length pre + length post + 1)); unfold ndim in *.
    - destruct L as [L|[L ->]]; [lia|]. reflexivity.
    - reflexivity. }
  assert (RE : resolve (shape a) (ATuple (pre ++ SEll :: post)) = resolve (shape a) (ATuple (pre ++ full ++ post))).
  { unfold resolve, normalize. simpl is_normalized.
    assert (FB : forallb is_builtin (pre ++ SEll :: post) = forallb is_builtin (pre ++ full ++ post)).
    { rewrite !forallb_app. simpl. replace (forallb is_builtin full) with true; [reflexivity|].
      symmetry. apply forallb_forall. intros x I. apply repeat_spec in I. subst. reflexivity. }
    rewrite FB. destruct (forallb is_builtin (pre ++ full ++ post)).
    - cbn [bind]. rewrite existsb_ell_app, (no_ell_existsb _ NF). cbn [expand]. rewrite EX. reflexivity.
    - rewrite EX. rewrite expand_none by (assumption || (unfold ndim in *; lia)). reflexivity. }
  rewrite RE. reflexivity.
Qed.

(** ** restrict *)
Lemma filter_positions (f : Qc -> bool) l : forall o k, In k (map fst (filter (fun p => f (snd p)) (combine (seq o (length l)) l))) <->
  exists v, o <= k /\ nth_error l (k - o) = Some v /\ f v = true.
Proof.
  induction l as [|x l IH]; intros o k.
  - simpl. split; [tauto|]. intros (v & _ & E & _). destruct (k - o); discriminate.
  - cbn [length seq combine filter snd]. destruct (f x) eqn:F.
    + simpl In. rewrite IH. split.
      * intros [<-|(v & L & E & Fv)].
        -- exists x. rewrite Nat.sub_diag. auto.
        -- exists v. split; [lia|]. replace (k - o) with (S (k - S o)) by lia. auto.
      * intros (v & L & E & Fv). destruct (Nat.eq_dec k o) as [->|N]; [left; reflexivity|]. right. exists v. split; [lia|].
        replace (k - o) with (S (k - S o)) in E by lia. auto.
    + rewrite IH. split.
      * intros (v & L & E & Fv). exists v. split; [lia|]. replace (k - o) with (S (k - S o)) by lia. auto.
      * intros (v & L & E & Fv). destruct (Nat.eq_dec k o) as [->|N].
        -- rewrite Nat.sub_diag in E. injection E as ->. congruence.
        -- exists v. split; [lia|]. replace (k - o) with (S (k - S o)) in E by lia. auto.
Qed.
Lemma leq_in l t k : In k (leq_positions l t) <-> exists v, nth_error l k = Some v /\ (v <= t)%Qc.
Proof.
  unfold leq_positions. rewrite (filter_positions (fun v => qc_leb v t)). rewrite Nat.sub_0_r.
  split; intros (v & H).
  - destruct H as (_ & E & Q). exists v. split; [exact E|]. destruct (qc_leb_spec v t); [assumption|discriminate].
  - destruct H as (E & Q). exists v. split; [lia|]. split; [exact E|]. destruct (qc_leb_spec v t); [reflexivity|contradiction].
Qed.
Lemma geq_in l t k : In k (geq_positions l t) <-> exists v, nth_error l k = Some v /\ (t <= v)%Qc.
Proof.
  unfold geq_positions. rewrite (filter_positions (fun v => qc_leb t v)). rewrite Nat.sub_0_r.
  split; intros (v & H).
  - destruct H as (_ & E & Q). exists v. split; [exact E|]. destruct (qc_leb_spec t v); [assumption|discriminate].
  - destruct H as (E & Q). exists v. split; [lia|]. split; [exact E|]. destruct (qc_leb_spec t v); [reflexivity|contradiction].
Qed.
Lemma fold_max r : forall x, In (fold_left Nat.max r x) (x :: r) /\ forall y, In y (x :: r) -> y <= fold_left Nat.max r x.
Proof.
  induction r as [|z r IH]; intros x; simpl; [split; [auto|]; intros y [->|[]]; lia|].
  destruct (IH (Nat.max x z)) as (I & M). split.
  - destruct I as [I|I]; [|auto]. rewrite <- I. destruct (Nat.max_spec x z) as [(_ & ->)|(_ & ->)]; auto.
  - intros y [->|[->|Y]].
    + specialize (M (Nat.max y z) (or_introl eq_refl)). lia.
    + specialize (M (Nat.max x y) (or_introl eq_refl)). lia.
    + apply M. right. exact Y.
Qed.
Lemma fold_min r : forall x, In (fold_left Nat.min r x) (x :: r) /\ forall y, In y (x :: r) -> fold_left Nat.min r x <= y.
Proof.
  induction r as [|z r IH]; intros x; simpl; [split; [auto|]; intros y [->|[]]; lia|].
  destruct (IH (Nat.min x z)) as (I & M). split.
  - destruct I as [I|I]; [|auto]. rewrite <- I. destruct (Nat.min_spec x z) as [(_ & ->)|(_ & ->)]; auto.
  - intros y [->|[->|Y]].
    + specialize (M (Nat.min y z) (or_introl eq_refl)). lia.
    + specialize (M (Nat.min x y) (or_introl eq_refl)). lia.
    + apply M. right. exact Y.
Qed.
Lemma find_1d_spec l t : l <> [] -> exists lo hi, find_1d l t = (Z.of_nat lo, Z.of_nat hi) /\ lo < length l /\ hi < length l /\
  (forall k v, nth_error l k = Some v -> (v <= t)%Qc -> k <= lo /\ exists w, nth_error l lo = Some w /\ (w <= t)%Qc) /\
  (forall k v, nth_error l k = Some v -> (t <= v)%Qc -> hi <= k /\ exists w, nth_error l hi = Some w /\ (t <= w)%Qc) /\
  ((forall k v, nth_error l k = Some v -> ~ (v <= t)%Qc) -> lo = 0) /\
  ((forall k v, nth_error l k = Some v -> ~ (t <= v)%Qc) -> hi = length l - 1).
Proof.
  intros NE. assert (LP : 0 < length l) by (destruct l; [congruence|simpl; lia]). unfold find_1d.
  assert (A : exists lo, match leq_positions l t with [] => 0%Z | x :: r => Z.of_nat (fold_left Nat.max r x) end = Z.of_nat lo /\ lo < length l /\
    (forall k v, nth_error l k = Some v -> (v <= t)%Qc -> k <= lo /\ exists w, nth_error l lo = Some w /\ (w <= t)%Qc) /\
    ((forall k v, nth_error l k = Some v -> ~ (v <= t)%Qc) -> lo = 0)).
  { destruct (leq_positions l t) as [|x r] eqn:E.
    - exists 0. split; [reflexivity|]. split; [exact LP|]. split; [|reflexivity]. intros k v H1 H2. exfalso.
      assert (I : In k (leq_positions l t)) by (apply leq_in; eauto). rewrite E in I. destruct I.
    - destruct (fold_max r x) as (I & M). exists (fold_left Nat.max r x). split; [reflexivity|]. rewrite <- E in I, M.
      pose proof I as I0. apply leq_in in I as (w & W1 & W2). split; [apply nth_error_Some; congruence|]. split.
      + intros k v H1 H2. split; [apply M, leq_in; eauto|eauto].
      + intros H. exfalso. exact (H _ _ W1 W2). }
  assert (B : exists hi, match geq_positions l t with [] => (Z.of_nat (length l) - 1)%Z | x :: r => Z.of_nat (fold_left Nat.min r x) end = Z.of_nat hi /\ hi < length l /\
    (forall k v, nth_error l k = Some v -> (t <= v)%Qc -> hi <= k /\ exists w, nth_error l hi = Some w /\ (t <= w)%Qc) /\
    ((forall k v, nth_error l k = Some v -> ~ (t <= v)%Qc) -> hi = length l - 1)).
  { destruct (geq_positions l t) as [|x r] eqn:E.
    - exists (length l - 1). split; [lia|]. split; [lia|]. split; [|reflexivity]. intros k v H1 H2. exfalso.
      assert (I : In k (geq_positions l t)) by (apply geq_in; eauto). rewrite E in I. destruct I.
    - destruct (fold_min r x) as (I & M). exists (fold_left Nat.min r x). split; [reflexivity|]. rewrite <- E in I, M.
      pose proof I as I0. apply geq_in in I as (w & W1 & W2). split; [apply nth_error_Some; congruence|]. split.
      + intros k v H1 H2. split; [apply M, geq_in; eauto|eauto].
      + intros H. exfalso. exact (H _ _ W1 W2). }
  destruct A as (lo & A1 & A2 & A3 & A4), B as (hi & B1 & B2 & B3 & B4). exists lo, hi. rewrite A1, B1. auto 10.
Qed.
Lemma strict_nth l : strictly_ascending l -> forall i j v w, i < j -> nth_error l i = Some v -> nth_error l j = Some w -> (v < w)%Qc.
Proof.
  induction 1 as [|x l S IH F]; intros i j v w L E1 E2; [destruct i; discriminate|].
  destruct j; [lia|]. destruct i; simpl in *.
  - injection E1 as <-. rewrite Forall_forall in F. apply F. eapply nth_error_In; eauto.
  - eapply (IH i j); eauto; lia.
Qed.
