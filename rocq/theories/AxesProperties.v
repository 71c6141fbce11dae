(** Properties C30, C31, C61, C62: axes. *)
From Verif Require Import PyBase PyLemmas ContainerModel ContainerSpec ContainerProofs ContainerProofs2 Nd IndexModel IndexProofs ArrayModel AxisModel AxisSpec AxisProofs AxesModel AxesSpec AxesProofs.
From Coq Require Import Lia Permutation.

(** ** C30: looking up positions on an axis *)

(** Symbols: one position per requested symbol, in the order of the request; a
    symbol that is not on the axis raises, and so does anything but strings. *)
Theorem C30_symbols (data : list str) ix (l : list str) p : l <> [] ->
  symbols_index data ix (Args (map TStr l)) = Ok p <->
  exists zs, answers zs p /\ Forall2 (fun x z => first_position data x z) l zs.
Proof. intros H. exact (symbols_ok data ix l p H). Qed.
Print Assumptions C30_symbols.
Theorem C30_symbols_missing (data : list str) ix (l : list str) x : In x l -> ~ In x data ->
  symbols_index data ix (Args (map TStr l)) = Raise ValueError.
Proof. apply symbols_missing. Qed.
Print Assumptions C30_symbols_missing.
Theorem C30_symbols_only data ix l : (exists q, In (TNum q) l) ->
  symbols_index data ix (Args l) = Raise (OtherError "AxisTypeError").
Proof.
  intros (q & H). unfold symbols_index. destruct l as [|t l]; [destruct H|]. destruct (forallb _ _) eqn:E; [|reflexivity].
  rewrite forallb_forall in E. specialize (E _ H). discriminate.
Qed.
Print Assumptions C30_symbols_only.

(** Points: one position per requested point; points that are not there raise. *)
Theorem C30_points (data : list Z) ix ts qs p : requested_points ts qs ->
  points_index data ix ts = Ok p <->
  exists zs, answers zs p /\ Forall2 (fun q z => first_position (map zq data) q z) qs zs.
Proof. apply points_ok. Qed.
Print Assumptions C30_points.
Theorem C30_points_missing (data : list Z) ix ts qs q : requested_points ts qs -> In q qs -> ~ In q (map zq data) ->
  points_index data ix ts = Raise (OtherError "AxisValueError").
Proof. apply points_missing. Qed.
Print Assumptions C30_points_missing.

(** Coordinates: the request, converted to the unit of the axis, must be on the
    axis; the closest position is returned for each number. *)
Theorem C30_coordinates (U : Type) ueq (one : U) factor data unit values u ts p :
  (forall u, ueq u u = true) -> data <> [] -> in_axis_unit ueq one factor unit u values ts ->
  coordinates_index ueq one factor data unit values u NoSide = Ok p <->
  exists zs, answers zs p /\ Forall2 (fun t z => on_axis data t /\ closest_at data t z) ts zs.
Proof. intros R. exact (coordinates_ok ueq one factor R data unit values u ts p). Qed.
Print Assumptions C30_coordinates.
Theorem C30_coordinates_missing (U : Type) ueq (one : U) factor data unit values u ts t :
  (forall u, ueq u u = true) -> data <> [] -> in_axis_unit ueq one factor unit u values ts -> In t ts -> ~ on_axis data t ->
  coordinates_index ueq one factor data unit values u NoSide = Raise (OtherError "AxisValueError").
Proof. intros R. exact (coordinates_missing ueq one factor R data unit values u ts t). Qed.
Print Assumptions C30_coordinates_missing.
(** Units that cannot be converted into that of the axis raise. *)
Theorem C30_coordinates_unit (U : Type) ueq (one : U) factor data unit values u closest e :
  ueq u one = false -> ueq u unit = false -> factor u unit = Raise e ->
  coordinates_index ueq one factor data unit values u closest = Raise e.
Proof. intros E1 E2 F. unfold coordinates_index, with_unit. rewrite E1. cbn [negb]. rewrite E2, F. reflexivity. Qed.
Print Assumptions C30_coordinates_unit.
(** With [closest='lower'] (['upper']): on an ascending axis, a number off the
    axis gets the greatest coordinate below (the least one above) if there is
    one. *)
Theorem C30_coordinates_side_partial (U : Type) ueq (one : U) factor data unit values u ts closest :
  (forall u, ueq u u = true) -> ascending data -> data <> [] -> in_axis_unit ueq one factor unit u values ts ->
  closest = LowerSide \/ closest = UpperSide ->
  (forall t, In t ts -> ~ on_axis data t -> exists v, In v data /\ match closest with LowerSide => (v <= t)%Qc | _ => (t <= v)%Qc end) ->
  exists zs p, coordinates_index ueq one factor data unit values u closest = Ok p /\ answers zs p /\
    Forall2 (fun t z => (on_axis data t /\ closest_at data t z) \/
       (~ on_axis data t /\ match closest with LowerSide => greatest_below data t z | UpperSide => least_above data t z | _ => False end)) ts zs.
Proof. intros R A NE I S X. exact (coordinates_side ueq one factor R data unit values u ts closest A NE I S X). Qed.
Print Assumptions C30_coordinates_side_partial.
(** ... and if there is none, an end of the axis on the wrong side is returned
    (-1 for the last position) instead of an error. *)
Theorem C30_no_such_side_refuted (data : list Qc) t : data <> [] ->
  ((forall v, In v data -> (t < v)%Qc) -> compute_index data t LowerSide = Ok 0%Z) /\
  ((forall v, In v data -> (v < t)%Qc) -> compute_index data t UpperSide = Ok (-1)%Z).
Proof.
  intros NE. split; intros H; refine (_ (compute_off_axis data t NE _)); try (intros (_ & _ & _ & _ & A & B); auto).
  - intros [X|((lo & Hlo & Le) & _)]; [apply (Qclt_not_le _ _ (H _ X)), Qcle_refl|apply (Qclt_not_le _ _ (H _ Hlo)), Le].
  - intros [X|(_ & (hi & Hhi & Le) & _)]; [apply (Qclt_not_le _ _ (H _ X)), Qcle_refl|apply (Qclt_not_le _ _ (H _ Hhi)), Le].
Qed.
Print Assumptions C30_no_such_side_refuted.

(** Any axis: integers are accepted exactly if they are valid subscripts. *)
Theorem C30_integers_partial n zs : 0 < n ->
  axis_index n (OneList (map (fun z => TNum (zq z)) zs)) =
  if forallb (fun z => (- Z.of_nat n <=? z)%Z && (z <? Z.of_nat n)%Z) zs then Ok (as_positions zs) else Raise ValueError.
Proof. apply axis_integers. Qed.
Print Assumptions C30_integers_partial.
(** Negative integers are not normalised, slices are not read as slices of the
    axis ([axis.index(slice(-2, None))] of an axis of length 3 has five
    positions), and an empty axis has a position 0. *)
Theorem C30_normalised_refuted :
  axis_index 3 (Args [TNum (zq (-1))]) = Ok (At (-1)) /\
  axis_index 3 (OneSlice {| sl_start := Some (-2)%Z; sl_stop := None; sl_step := None |}) = Ok (These [-2; -1; 0; 1; 2]%Z) /\
  axis_index 0 (OneList [TNum (zq 0)]) = Ok (At 0).
Proof. split; [|split]; vm_compute; reflexivity. Qed.
Print Assumptions C30_normalised_refuted.
(** A slice of a points axis is a slice of the values, not of the positions; and
    without a request a points axis returns its values, not their positions. *)
Theorem C30_points_slice_refuted :
  points_index [5; 6; 7]%Z None (OneSlice {| sl_start := None; sl_stop := Some 2%Z; sl_step := None |}) = Raise (OtherError "AxisValueError") /\
  points_index [5; 6; 7]%Z None (Args []) = Ok (These [5; 6; 7]%Z).
Proof. split; vm_compute; reflexivity. Qed.
Print Assumptions C30_points_slice_refuted.

Example C30_case :
  symbols_index [s "H+"; s "He+"; s "He++"] None (Args [TStr (s "He++"); TStr (s "H+")]) = Ok (These [2; 0]%Z) /\
  points_index [4; 6; 6]%Z None (Args [TNum (zq 6)]) = Ok (At 1) /\
  coordinates_index Nat.eqb 0 (fun _ _ => Ok (zq 10)) [zq 1; zq 20; zq 35] 1 [zq 2] 2 NoSide = Ok (At 1) /\
  coordinates_index Nat.eqb 0 (fun _ _ => Ok (zq 10)) [zq 1; zq 20; zq 35] 1 [zq 3] 2 LowerSide = Ok (At 1) /\
  in_axis_unit Nat.eqb 0 (fun _ _ => Ok (zq 10)) 1 2 [zq 3] [zq 3 * zq 10]%Qc.
Proof.
  split; [vm_compute; reflexivity|]. split; [vm_compute; reflexivity|]. split; [vm_compute; reflexivity|]. split; [vm_compute; reflexivity|].
  exact (I_converted Nat.eqb 0 (fun _ _ => Ok (zq 10)) 1 2 [zq 3] (zq 10) eq_refl eq_refl eq_refl).
Qed.

(** ** C31: re-arranging axes *)

(** Permuting by name or by index gives a permutation of the very same axes, in
    the order of the request (repeats ignored); it is accepted exactly if the
    request names every axis and nothing else. *)
Theorem C31_permute_by_name (B : Type) (a r : axes B) l : named a -> permute a (ByName l) = Ok r ->
  Permutation a r /\ firsts l (map fst r) /\ (forall x, In x l <-> has a x).
Proof. apply permute_names_ok. Qed.
Print Assumptions C31_permute_by_name.
Theorem C31_permute_by_name_accepts (B : Type) (a : axes B) l : named a ->
  (exists r, permute a (ByName l) = Ok r) <-> l <> [] /\ forall x, In x l <-> has a x.
Proof. apply permute_names_accepts. Qed.
Print Assumptions C31_permute_by_name_accepts.
Theorem C31_permute_by_index (B : Type) (a r : axes B) l : named a -> permute a (ByIndex l) = Ok r ->
  Permutation a r /\ exists ds,
    Forall2 (fun z d => exists i, nth_error (map fst a) i = Some d /\ (z = Z.of_nat i \/ z = Z.of_nat i - Z.of_nat (length a))%Z) l ds /\
    firsts ds (map fst r).
Proof.
  intros N H. destruct (permute_index_ok a l r N H) as (P & ds & F & Q). split; [exact P|]. exists ds. split; [|exact Q].
  eapply Forall2_weaken; [|exact F]. intros z d _ (i & E & D). exists i. split; [exact D|]. now apply norm_index_cases in E.
Qed.
Print Assumptions C31_permute_by_index.
Theorem C31_permute_by_index_accepts (B : Type) (a : axes B) l : named a ->
  (exists r, permute a (ByIndex l) = Ok r) <->
  l <> [] /\ exists is, Forall2 (fun z i => i < length a /\ (z = Z.of_nat i \/ z = Z.of_nat i - Z.of_nat (length a))%Z) l is /\
    forall i, i < length a -> In i is.
Proof.
  intros N. rewrite (permute_index_accepts a l N). split; intros (NE & is & F & C); (split; [exact NE|]; exists is; split; [|exact C]);
    (eapply Forall2_weaken; [|exact F]); intros z i _; apply norm_index_cases.
Qed.
Print Assumptions C31_permute_by_index_accepts.
(** Strictly permutations are accepted, but so are requests with repeats. *)
Theorem C31_repeats_refuted : exists (a : axes nat) l r, named a /\ permute a (ByName l) = Ok r /\ ~ NoDup l.
Proof.
  exists [(s "x", 3); (s "y", 4)], [s "y"; s "x"; s "y"]. eexists. split; [|split; [vm_compute; reflexivity|]].
  - repeat first [apply NoDup_nil | apply NoDup_cons]; cbn; intuition discriminate.
  - intros N. inversion N as [|? ? H _]; subst. apply H. right. now left.
Qed.
Print Assumptions C31_repeats_refuted.

(** Inserting a new name loses nothing: the result is the axes with the new one
    in some place, or - a lost request - the axes unchanged. *)
Theorem C31_insert_keeps (B : Type) (a : axes B) dim new loc : named a -> ~ has a dim ->
  exists l1 l2, a = l1 ++ l2 /\ (insert a dim new loc = Ok (l1 ++ (dim, new) :: l2) \/ insert a dim new loc = Ok a).
Proof. apply insert_keeps. Qed.
Print Assumptions C31_insert_keeps.
(** With [index] (within the axes) or without location it goes where requested. *)
Theorem C31_insert_index_partial (B : Type) (l1 l2 : axes B) dim new : named (l1 ++ l2) -> ~ has (l1 ++ l2) dim -> l2 <> [] ->
  insert (l1 ++ l2) dim new (Index (Z.of_nat (length l1))) = Ok (l1 ++ (dim, new) :: l2).
Proof. apply insert_index. Qed.
Print Assumptions C31_insert_index_partial.
Theorem C31_insert_last (B : Type) (a : axes B) dim new : named a -> ~ has a dim ->
  insert a dim new Anywhere = Ok (a ++ [(dim, new)]).
Proof. apply insert_fresh. Qed.
Print Assumptions C31_insert_last.
(** [before] and [after] are swapped, always: *)
Theorem C31_insert_swapped_refuted (B : Type) (l1 l2 : axes B) d dim v new :
  named (l1 ++ (d, v) :: l2) -> ~ has (l1 ++ (d, v) :: l2) dim ->
  insert (l1 ++ (d, v) :: l2) dim new (Before d) = Ok (l1 ++ (d, v) :: (dim, new) :: l2) /\
  insert (l1 ++ (d, v) :: l2) dim new (After d) = Ok (l1 ++ (dim, new) :: (d, v) :: l2).
Proof. apply insert_swapped. Qed.
Print Assumptions C31_insert_swapped_refuted.
(** ... and an unknown location, the index just past the last axis or a negative
    index silently drop the new axis. *)
Theorem C31_insert_dropped_refuted (B : Type) (a : axes B) dim new : named a ->
  (forall d, ~ has a d -> insert a dim new (Before d) = Ok a /\ insert a dim new (After d) = Ok a) /\
  (forall z, (z < 0 \/ Z.of_nat (length a) <= z)%Z -> insert a dim new (Index z) = Ok a).
Proof.
  intros N. split.
  - intros d H. split; apply insert_dropped; try discriminate; assumption.
  - intros z H. apply insert_dropped; [exact N|discriminate|]. cbn. lia.
Qed.
Print Assumptions C31_insert_dropped_refuted.

(** Removing keeps all other axes in order. *)
Theorem C31_without (B : Type) (a r : axes B) d strict : without a d strict = Ok r ->
  subseq r a /\ (forall k v, In (k, v) r <-> In (k, v) a /\ k <> d) /\ (strict = true -> has a d).
Proof. apply without_ok. Qed.
Print Assumptions C31_without.
Theorem C31_without_raises (B : Type) (a : axes B) d : (~ has a d -> without a d true = Raise KeyError) /\
  (exists r, without a d false = Ok r).
Proof.
  split; [|eexists; reflexivity]. intros H. unfold without, anames_of. rewrite (proj2 (smem_false _ _) H). reflexivity.
Qed.
Print Assumptions C31_without_raises.

(** Extracting gives the requested axes in the order of the request. *)
Theorem C31_extract (B : Type) (a r : axes B) ds : named a -> extract a ds = Ok r ->
  ds <> [] /\ firsts ds (map fst r) /\ (forall k v, In (k, v) r -> In (k, v) a).
Proof. apply extract_ok. Qed.
Print Assumptions C31_extract.
Theorem C31_extract_raises (B : Type) (a : axes B) ds : named a ->
  ((exists r, extract a ds = Ok r) <-> ds <> [] /\ forall d, In d ds -> has a d) /\
  ((exists d, In d ds /\ ~ has a d) -> extract a ds = Raise KeyError).
Proof. apply extract_accepts. Qed.
Print Assumptions C31_extract_raises.

(** Replacing changes one axis in place, and its name only if requested. *)
Theorem C31_replace (B : Type) (l1 l2 : axes B) d v new : named (l1 ++ (d, v) :: l2) ->
  replace_axis (l1 ++ (d, v) :: l2) d new = Ok (l1 ++ (d, new) :: l2).
Proof. apply replace_axis_ok. Qed.
Print Assumptions C31_replace.
Theorem C31_replace_named_partial (B : Type) (l1 l2 : axes B) d key v new :
  named (l1 ++ (d, v) :: l2) -> ~ In key (map fst (l1 ++ l2)) ->
  replace_pair (l1 ++ (d, v) :: l2) d key new = Ok (l1 ++ (key, new) :: l2).
Proof. apply replace_pair_ok. Qed.
Print Assumptions C31_replace_named_partial.
Theorem C31_replace_raises (B : Type) (a : axes B) d : ~ has a d ->
  forall key new, replace_axis a d new = Raise KeyError /\ replace_pair a d key new = Raise KeyError.
Proof. apply replace_missing. Qed.
Print Assumptions C31_replace_raises.
(** The new name may be that of another axis, which is then lost. *)
Theorem C31_replace_collision_refuted : exists (a r : axes nat), named a /\
  replace_pair a (s "x") (s "y") 5 = Ok r /\ length a = 3 /\ length r = 2 /\ axis_named r (s "y") = Ok 4.
Proof.
  exists [(s "x", 3); (s "y", 4); (s "z", 6)]. eexists. split; [|split; [vm_compute; reflexivity|]].
  - repeat first [apply NoDup_nil | apply NoDup_cons]; cbn; intuition discriminate.
  - split; [reflexivity|]. split; reflexivity.
Qed.
Print Assumptions C31_replace_collision_refuted.

(** Merging: a common supersequence of the names; an axis of the second
    operand replaces that of the first one. *)
Theorem C31_merge (B : Type) (a b r : axes B) : named a -> named b -> axes_merge a b = Ok r ->
  named r /\ subseq (map fst a) (map fst r) /\ subseq (map fst b) (map fst r) /\
  (forall k v, In (k, v) r <-> In (k, v) b \/ (In (k, v) a /\ ~ has b k)).
Proof. apply axes_merge_ok. Qed.
Print Assumptions C31_merge.
Theorem C31_merge_raises (B : Type) (a b : axes B) : named a -> named b ->
  ((exists e, axes_merge a b = Raise e) <-> ~ exists l, NoDup l /\ subseq (map fst a) l /\ subseq (map fst b) l) /\
  (forall e, axes_merge a b = Raise e -> e = ValueError).
Proof.
  intros NA NB. pose proof (merge_names a b NA NB) as H. destruct (axes_merge a b) as [r|e] eqn:E.
  - split; [|discriminate]. split; [intros (e & X); discriminate|]. intros X. exfalso. apply X. exists (map fst r).
    destruct (axes_merge_ok a b r NA NB E) as (N & SA & SB & _). auto.
  - destruct H as (-> & M). split; [|intros e X; congruence]. split; [|eauto]. intros _ (l & NL & SA & SB).
    destruct (merge_complete str_eqb str_decides _ _ l NA NB NL SA SB) as (m & M'). congruence.
Qed.
Print Assumptions C31_merge_raises.

Definition ex_axes : axes nat := [(s "t", 10); (s "r", 20); (s "E", 30)].
Example C31_case : named ex_axes /\ ~ has ex_axes (s "mu") /\
  permute ex_axes (ByIndex [-1; 0; 1]%Z) = Ok [(s "E", 30); (s "t", 10); (s "r", 20)] /\
  insert ex_axes (s "mu") 4 (Index 1) = Ok [(s "t", 10); (s "mu", 4); (s "r", 20); (s "E", 30)] /\
  extract ex_axes [s "E"; s "t"] = Ok [(s "E", 30); (s "t", 10)] /\
  axes_merge ex_axes [(s "t", 11); (s "mu", 3)] = Ok [(s "t", 11); (s "r", 20); (s "E", 30); (s "mu", 3)] /\
  axes_merge ex_axes [(s "E", 11); (s "t", 3)] = Raise ValueError.
Proof.
  split; [repeat first [apply NoDup_nil | apply NoDup_cons]; cbn; intuition discriminate|].
  split; [cbn; intuition discriminate|]. split; [vm_compute; reflexivity|]. split; [vm_compute; reflexivity|].
  split; [vm_compute; reflexivity|]. split; vm_compute; reflexivity.
Qed.

(** ** C61: making axes *)
Definition made {B C} (conv : C -> result B) (ds : list str) (l : list C) (r : axes B) : Prop :=
  map fst r = ds /\ Forall2 (fun c kv => conv c = Ok (snd kv)) l r.
Lemma convert_made {B C} (conv : C -> result B) ds : forall l r, length l = length ds ->
  convert_pairs conv (combine ds l) = Ok r <-> made conv ds l r.
Proof.
  unfold convert_pairs, made. induction ds as [|d ds IH]; intros [|c l] r L; try discriminate; cbn [combine mapM].
  - split; [intros H; injection H as <-; split; [reflexivity|constructor]|]. intros (_ & F). inversion F. reflexivity.
  - injection L as L. cbn [snd fst]. split.
    + destruct (conv c) as [b|] eqn:E; cbn [bind]; [|discriminate]. destruct (mapM _ (combine ds l)) as [r'|] eqn:M; cbn [bind]; [|discriminate].
      intros H. injection H as <-. apply (IH l r' L) in M as (M & F). split; [cbn; now f_equal|]. constructor; assumption.
    + intros (M & F). inversion F as [|? [k b] ? r' E F']; subst. cbn [map fst snd] in *. injection M as -> M. rewrite E. cbn [bind].
      assert (mapM (fun kc : str * C => b <- conv (snd kc);; Ok (fst kc, b)) (combine ds l) = Ok r') as -> by (apply IH; [exact L|split; assumption]).
      reflexivity.
Qed.
Lemma default_name_inj i j : default_name i = default_name j -> i = j.
Proof.
  unfold default_name. intros H. apply app_inv_head in H. apply (f_equal N_of_str) in H. rewrite !N_of_str_of_N in H. lia.
Qed.
Lemma default_names_nodup n : NoDup (map default_name (seq 0 n)).
Proof. apply FinFun.Injective_map_NoDup; [intros x y; apply default_name_inj|apply seq_NoDup]. Qed.

(** Given names and as many things that can be axes, each name gets its axis, in
    order; without names they are x0, x1, ... *)
Theorem C61_names_and_axes_partial (B C : Type) (conv : C -> result B) points ds l r : NoDup ds -> length l = length ds ->
  forall shape, map_axes conv points [] (Some l) shape (Some ds) = Ok r <-> made conv ds l r.
Proof.
  intros N L sh. cbn [map_axes]. rewrite (proj2 (Nat.eqb_eq _ _) L). rewrite <- (convert_made conv ds l r L).
  destruct (convert_pairs conv (combine ds l)) as [r'|e] eqn:E; cbn [bind].
  - apply (convert_made conv ds l r' L) in E as (E & _). rewrite (dict_of_nodup str_eqb str_decides) by (rewrite E; exact N). reflexivity.
  - reflexivity.
Qed.
Print Assumptions C61_names_and_axes_partial.
Theorem C61_default_names (B C : Type) (conv : C -> result B) points l shape r :
  map_axes conv points [] (Some l) shape None = Ok r <-> made conv (map default_name (seq 0 (length l))) l r.
Proof.
  assert (length l = length (map default_name (seq 0 (length l)))) as L by now rewrite map_length, seq_length.
  cbn [map_axes]. unfold default_axes. rewrite <- (convert_made conv _ l r L).
  destruct (convert_pairs conv (combine (map default_name (seq 0 (length l))) l)) as [r'|e] eqn:E; cbn [bind]; [|reflexivity].
  apply (convert_made conv _ l r' L) in E as (E & _). rewrite (dict_of_nodup str_eqb str_decides) by (rewrite E; apply default_names_nodup). reflexivity.
Qed.
Print Assumptions C61_default_names.
(** Given a shape, the axis of each length is the points 0, 1, ... *)
Theorem C61_shape_partial (B C : Type) (conv : C -> result B) points ds (sh : list nat) : NoDup ds -> length sh = length ds ->
  map_axes conv points [] None (Some sh) (Some ds) = Ok (combine ds (map points sh)).
Proof.
  intros N L. cbn [map_axes]. rewrite (proj2 (Nat.eqb_eq _ _) L). f_equal. apply (dict_of_nodup str_eqb str_decides).
  replace (map fst (combine ds (map points sh))) with ds; [exact N|]. clear N. revert sh L. induction ds as [|d ds IH]; intros [|n sh] L; try discriminate; [reflexivity|].
  cbn. f_equal. apply IH. now injection L.
Qed.
Print Assumptions C61_shape_partial.
(** A wrong number of names raises. *)
Theorem C61_count (B C : Type) (conv : C -> result B) points ds l (sh : list nat) :
  (length l <> length ds -> forall shape, map_axes conv points [] (Some l) shape (Some ds) = Raise ValueError) /\
  (length sh <> length ds -> map_axes conv points [] None (Some sh) (Some ds) = Raise ValueError).
Proof. split; intros H; [intros shape|]; cbn [map_axes]; rewrite (proj2 (Nat.eqb_neq _ _) H); reflexivity. Qed.
Print Assumptions C61_count.
(** Repeated names are not noticed: axes are lost. *)
Theorem C61_repeated_names_refuted : exists r, map_axes (fun c : nat => Ok c) (fun n => n) [] (Some [3; 4]) None (Some [s "x"; s "x"]) = Ok r /\ length r = 1.
Proof. eexists. split; [vm_compute; reflexivity|reflexivity]. Qed.
Print Assumptions C61_repeated_names_refuted.
Example C61_case : exists r, map_axes (fun c : nat => Ok c) (fun n => n) [] (Some [3; 4]) None (Some [s "x"; s "y"]) = Ok r /\
  made (fun c : nat => Ok c) [s "x"; s "y"] [3; 4] r /\ NoDup [s "x"; s "y"].
Proof.
  eexists. split; [vm_compute; reflexivity|]. split; [split; [reflexivity|repeat constructor]|].
  repeat first [apply NoDup_nil | apply NoDup_cons]; cbn; intuition discriminate.
Qed.

(** ** C62: a part of an axis *)
Theorem C62_members (M : Type) (data : list M) i ms ix : axis_getitem data i = Ok (ms, ix) ->
  exists ps, data_positions (length data) i = Ok ps /\ Forall2 (fun p m => nth_error data p = Some m) ps ms.
Proof. apply getitem_members. Qed.
Print Assumptions C62_members.
(** The part remembers the positions of its members in the axis it is taken
    from, unless the slice counts from the end or exceeds the axis. *)
Theorem C62_indices_partial (M : Type) (data : list M) i ms ix : forward (length data) i ->
  axis_getitem data i = Ok (ms, ix) -> Forall2 (holds_at data) (axis_indices (ms, ix)) ms.
Proof. apply getitem_indices. Qed.
Print Assumptions C62_indices_partial.
Theorem C62_negative_slice_refuted : exists ms ix,
  axis_getitem [10; 20; 30] (SubSlice {| sl_start := Some (-1)%Z; sl_stop := None; sl_step := None |}) = Ok (ms, ix) /\
  ms = [30] /\ axis_indices (ms, ix) = [-1; 0; 1; 2]%Z.
Proof. do 2 eexists. split; [vm_compute; reflexivity|]. split; reflexivity. Qed.
Print Assumptions C62_negative_slice_refuted.
(** A part of a part remembers the positions in the part only. *)
Theorem C62_part_of_part_refuted : exists ms ix ms' ix',
  axis_getitem [10; 20; 30] (SubSlice {| sl_start := Some 1%Z; sl_stop := None; sl_step := None |}) = Ok (ms, ix) /\
  axis_getitem ms (SubInt 1) = Ok (ms', ix') /\ ms' = [30] /\ axis_indices (ms', ix') = [1]%Z.
Proof. do 4 eexists. split; [vm_compute; reflexivity|]. split; [vm_compute; reflexivity|]. split; reflexivity. Qed.
Print Assumptions C62_part_of_part_refuted.
Example C62_case : exists ms ix, forward 5 (SubSlice {| sl_start := Some 1%Z; sl_stop := None; sl_step := Some 2%Z |}) /\
  axis_getitem [1; 2; 3; 4; 5] (SubSlice {| sl_start := Some 1%Z; sl_stop := None; sl_step := Some 2%Z |}) = Ok (ms, ix) /\
  ms = [2; 4] /\ axis_indices (ms, ix) = [1; 3]%Z.
Proof. do 2 eexists. split; [cbn; lia|]. split; [vm_compute; reflexivity|]. split; reflexivity. Qed.

(** ** C72: comparing collections of axes *)
Section C72.
Set Default Proof Using "Type".
Context {B : Type} (beq : B -> B -> bool).
(** some name has two different axes *)
Definition conflict (a b : axes B) : Prop := exists k v w, In (k, v) a /\ axis_named b k = Ok w /\ beq v w = false.
Lemma conflict_spec a b : shared_differ beq a b = true <-> conflict a b.
Proof.
  unfold shared_differ, conflict. rewrite existsb_exists. split.
  - intros ((k, v) & I & H). cbn [fst snd] in H. destruct (axis_named b k) as [w|] eqn:E; [|discriminate H]. exists k, v, w. split; [exact I|]. split; [exact E|]. apply negb_true_iff, H.
  - intros (k & v & w & I & E & H). exists (k, v). split; [exact I|]. cbn [fst snd]. rewrite E, H. reflexivity.
Qed.
(** The orderings compare the names, and refuse collections in which a shared
    name has different axes. *)
Theorem C72_order a b : (conflict a b -> axes_le beq a b = Raise ValueError /\ axes_lt beq a b = Raise ValueError) /\
  (~ conflict a b -> exists l s, axes_le beq a b = Ok l /\ axes_lt beq a b = Ok s /\
     (l = true <-> forall d, has a d -> has b d) /\ (s = true <-> (forall d, has a d -> has b d) /\ exists d, has b d /\ ~ has a d)).
Proof.
  unfold axes_le, axes_lt. destruct (shared_differ beq a b) eqn:E.
  - apply conflict_spec in E. split; [auto|contradiction].
  - assert (N : ~ conflict a b) by (intros H; apply conflict_spec in H; congruence). split; [contradiction|]. intros _. do 2 eexists. split; [reflexivity|]. split; [reflexivity|].
    split; [exact (subset_spec _ _)|]. unfold dims_lt. rewrite andb_true_iff, negb_true_iff, subset_spec, subset_false. reflexivity.
Qed.
(** Equal collections have the same names in the same order, and equal axes. *)
Theorem C72_equal a b : axes_eq beq a b = true <-> anames_of a = anames_of b /\ forall k v, In (k, v) a -> exists w, axis_named b k = Ok w /\ beq v w = true.
Proof.
  unfold axes_eq. rewrite andb_true_iff, forallb_forall. split.
  - intros (N & F). split; [apply (list_eqb_spec str_eqb), N; exact str_decides|]. intros k v I. specialize (F (k, v) I). cbn [fst snd] in F. destruct (axis_named b k) as [w|]; [|discriminate F]. exists w. auto.
  - intros (N & F). split; [apply (list_eqb_spec str_eqb); [exact str_decides|exact N]|]. intros (k, v) I. cbn [fst snd]. destruct (F k v I) as (w & -> & H). exact H.
Qed.
End C72.
Print Assumptions C72_order.
Print Assumptions C72_equal.
Example C72_case : let a := [(s "x", 1)] in let b := [(s "y", 2); (s "x", 1)] in let c := [(s "x", 3); (s "y", 2)] in
  axes_le Nat.eqb a b = Ok true /\ axes_lt Nat.eqb a b = Ok true /\ axes_le Nat.eqb b a = Ok false /\ axes_le Nat.eqb a c = Raise ValueError /\ conflict Nat.eqb a c /\ ~ conflict Nat.eqb a b.
Proof.
  repeat split. - exists (s "x"), 1, 3. repeat split. left. reflexivity.
  - intros (k & v & w & I & E & D). destruct I as [I|[]]. injection I as <- <-. vm_compute in E. injection E as <-. discriminate D.
Qed.
