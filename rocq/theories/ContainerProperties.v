(** Properties C09-C14, C50, C52, C54: container utilities. *)
From Verif Require Import PyBase PyLemmas ContainerModel ContainerSpec ContainerProofs ContainerProofs2 ContainerRegistry.
From Coq Require Import Sorted.

(** ** C09: merge *)
Theorem C09_merge_is_common_supersequence (A : Type) (eqb : A -> A -> bool) (x y l : list A) :
  decides eqb -> NoDup x -> NoDup y -> merge eqb x y = Ok l ->
  subseq x l /\ subseq y l /\ NoDup l /\ forall v, In v l <-> In v x \/ In v y.
Proof. intros D NX NY H. destruct (merge_ok eqb D x y l NX NY H) as (H1 & H2 & H3 & H4). auto. Qed.
Print Assumptions C09_merge_is_common_supersequence.
Theorem C09_raises_exactly_on_conflict (A : Type) (eqb : A -> A -> bool) (x y : list A) :
  decides eqb -> NoDup x -> NoDup y ->
  (merge eqb x y = Raise MergeError <-> ~ exists l, NoDup l /\ subseq x l /\ subseq y l) /\
  (forall e, merge eqb x y = Raise e -> e = MergeError).
Proof.
  intros D NX NY. destruct (merge_total eqb D x y NX NY) as (r & E & C). split.
  - split.
    + intros M (l & NL & SX & SY). destruct (merge_complete eqb D x y l NX NY NL SX SY) as (m & M'). congruence.
    + intros N. rewrite E. destruct C as [C|(l & C)]; [exact C|]. exfalso. apply N. subst r.
      destruct (merge_ok eqb D x y l NX NY C) as (H1 & H2 & _ & H4). eauto.
  - intros e M. rewrite M in E. subst r. destruct C as [C|(l & C)]; congruence.
Qed.
Print Assumptions C09_raises_exactly_on_conflict.
(** The "unique members" promised by the docstring fail for arguments with
    repeats of their own. *)
Theorem C09_repeats_refuted : exists x y l, merge str_eqb x y = Ok l /\ ~ NoDup l.
Proof.
  exists [s "a"; s "b"; s "a"], [s "a"; s "b"; s "a"]. eexists. split; [reflexivity|].
  intros H. inversion H as [|? ? N _]; subst. apply N. cbv. auto.
Qed.
Print Assumptions C09_repeats_refuted.
Example C09_case : NoDup [s "t"; s "x"; s "z"] /\ NoDup [s "q"; s "x"; s "y"; s "z"] /\
  merge str_eqb [s "t"; s "x"; s "z"] [s "q"; s "x"; s "y"; s "z"] = Ok [s "t"; s "q"; s "x"; s "y"; s "z"] /\
  merge str_eqb [s "x"; s "z"] [s "z"; s "x"] = Raise MergeError.
Proof. repeat split; repeat constructor; simpl; intuition discriminate. Qed.

(** ** C10: nearest *)
Theorem C10_closest_member (values : list Qc) (target : Qc) : values <> [] ->
  exists i v, nearest values target NoBound = Ok (Z.of_nat i, v) /\ nth_error values i = Some v /\
  forall j w, nth_error values j = Some w ->
    (distance v target <= distance w target)%Qc /\ (j < i -> (distance v target < distance w target)%Qc).
Proof. exact (nearest_free values target). Qed.
Print Assumptions C10_closest_member.
Theorem C10_lower_bound (values : list Qc) (target : Qc) :
  ascending values -> (exists v, In v values /\ (target <= v)%Qc) ->
  exists i v, nearest values target Lower = Ok (Z.of_nat i, v) /\ nth_error values i = Some v /\ (target <= v)%Qc /\
    forall w, In w values -> (target <= w)%Qc -> (v <= w)%Qc.
Proof. exact (nearest_lower values target). Qed.
Print Assumptions C10_lower_bound.
Theorem C10_upper_bound (values : list Qc) (target : Qc) :
  ascending values -> (exists v, In v values /\ (v <= target)%Qc) ->
  exists i v, nearest values target Upper = Ok (Z.of_nat i, v) /\ nth_error values i = Some v /\ (v <= target)%Qc /\
    forall w, In w values -> (w <= target)%Qc -> (w <= v)%Qc.
Proof. exact (nearest_upper values target). Qed.
Print Assumptions C10_upper_bound.
Theorem C10_nothing_on_that_side (values : list Qc) (target : Qc) : values <> [] ->
  ((forall v, In v values -> (v < target)%Qc) -> nearest values target Lower = Ok ((-1)%Z, last values 0%Qc)) /\
  ((forall v, In v values -> (target < v)%Qc) -> nearest values target Upper = Ok (0%Z, hd 0%Qc values)).
Proof. intros N. split; [apply nearest_lower_none, N | apply nearest_upper_none, N]. Qed.
Print Assumptions C10_nothing_on_that_side.
Theorem C10_empty (target : Qc) b : nearest [] target b = Raise ValueError.
Proof. reflexivity. Qed.
Print Assumptions C10_empty.
(** Descending data break the side condition. *)
Theorem C10_descending_refuted : exists values target i v,
  StronglySorted (fun a b => (b <= a)%Qc) values /\ (exists w, In w values /\ (target <= w)%Qc) /\
  nearest values target Lower = Ok (i, v) /\ (v < target)%Qc.
Proof.
  exists [zq 10; zq 1], (zq 2), (-1)%Z, (zq 1). repeat split.
  - repeat constructor; discriminate.
  - exists (zq 10). split; [left; reflexivity | discriminate].
Qed.
Print Assumptions C10_descending_refuted.
Example C10_case : ascending [zq 1; zq 3; zq 8] /\ (exists v, In v [zq 1; zq 3; zq 8] /\ (zq 4 <= v)%Qc) /\
  nearest [zq 1; zq 3; zq 8] (zq 4) NoBound = Ok (1%Z, zq 3) /\
  nearest [zq 1; zq 3; zq 8] (zq 4) Lower = Ok (2%Z, zq 8) /\
  nearest [zq 1; zq 3; zq 8] (zq 7) Upper = Ok (1%Z, zq 3).
Proof.
  split; [repeat constructor; discriminate|]. split; [exists (zq 8); split; [simpl; auto | discriminate]|]. repeat split.
Qed.

(** ** C11: unique *)
Theorem C11_unique_items (A : Type) (eqb : A -> A -> bool) (items : list A) : decides eqb ->
  let u := unique_items eqb items in
  NoDup u /\ (forall x, In x u <-> In x items) /\ subseq u items /\
  forall i j x y, first_at items i x -> first_at items j y -> i < j ->
    exists a b, u = a ++ b /\ In x a /\ In y b /\ ~ In y a.
Proof.
  intros D u. destruct (unique_items_spec eqb D items) as (H1 & H2 & H3). repeat split; auto; try apply H2.
  intros i j x y Fx Fy L. apply (unique_order eqb D items [] u eq_refl i j x y Fx Fy); auto.
Qed.
Print Assumptions C11_unique_items.
Theorem C11_unique_call (A : Type) (eqb : A -> A -> bool) iter strict (args : list A) :
  unique eqb iter strict args =
  match args with
  | [x] => if strict then Ok (unique_items eqb [x])
           else match iter x with Some items => Ok (unique_items eqb items) | None => Raise TypeError end
  | _ => Ok (unique_items eqb args)
  end.
Proof. destruct args as [|x [|y l]], strict; reflexivity. Qed.
Print Assumptions C11_unique_call.
Example C11_case : unique_items str_eqb [s "b"; s "a"; s "b"; s "c"; s "a"] = [s "b"; s "a"; s "c"] /\
  first_at [s "b"; s "a"; s "b"] 1 (s "a").
Proof. split; [reflexivity|]. split; [reflexivity|]. intros [|j] H; [discriminate | lia]. Qed.

(** ** C12: weighted graphs *)
Theorem C12_first_weight_kept base a b : conn_get (build_graph base) (a, b) = first_given base a b.
Proof. exact (build_graph_first base a b). Qed.
Print Assumptions C12_first_weight_kept.
Theorem C12_mutually_inverse base a b q :
  (forall e, In e base -> fst (fst e) <> snd (fst e)) -> a <> b ->
  get_weight (build_graph base) a b = Ok (Some q) -> q <> 0%Qc ->
  exists q', get_weight (build_graph base) b a = Ok (Some q') /\ (q * q' = 1)%Qc.
Proof.
  intros NS N H Q. pose proof (build_graph_inv base NS a b N) as M. unfold get_weight in *.
  destruct (conn_get (build_graph base) (a, b)) as [w|]; [|discriminate]. injection H as ->.
  rewrite M. cbn [option_map inverse_weight]. rewrite (proj2 (qc_eqb_neq q 0) Q). eexists. split; [reflexivity|].
  apply Qcmult_inv_r, Q.
Qed.
Print Assumptions C12_mutually_inverse.
Theorem C12_symmetric_neighbours base a b :
  (forall e, In e base -> fst (fst e) <> snd (fst e)) ->
  In b (map fst (get_adjacencies (build_graph base) a)) -> In a (map fst (get_adjacencies (build_graph base) b)).
Proof.
  intros NS. rewrite !adjacent_iff, <- !conn_get_in. intros (w & H).
  destruct (str_eq_dec a b) as [->|N]; [eauto|]. rewrite (build_graph_inv base NS a b N), H. eexists. reflexivity.
Qed.
Print Assumptions C12_symmetric_neighbours.
Theorem C12_missing_raises c a b : get_weight c a b = Raise KeyError <-> ~ In (a, b) (map fst c).
Proof.
  rewrite <- conn_get_in. unfold get_weight. destruct (conn_get c (a, b)) eqn:E.
  - split; [discriminate|]. intros H. exfalso. eauto.
  - split; [intros _ (w & X); discriminate | reflexivity].
Qed.
Print Assumptions C12_missing_raises.
(** A connection of a node to itself keeps one weight for both directions. *)
Theorem C12_self_loop_refuted : exists base a q,
  get_weight (build_graph base) a a = Ok (Some q) /\ q <> 0%Qc /\ (q * q <> 1)%Qc.
Proof.
  exists [((s "m", s "m"), Some (zq 2))], (s "m"), (zq 2). repeat split; intros H; discriminate H.
Qed.
Print Assumptions C12_self_loop_refuted.
Definition metres := [((s "m", s "cm"), Some (zq 100)); ((s "cm", s "m"), Some (zq 7)); ((s "m", s "au"), None)].
Example C12_case : (forall e, In e metres -> fst (fst e) <> snd (fst e)) /\
  get_weight (build_graph metres) (s "cm") (s "m") = Ok (Some (mkq 1 100)).
Proof. split; [intros e [<-|[<-|[<-|[]]]]; discriminate | reflexivity]. Qed.

(** ** C13: bijections *)
Theorem C13_construction (K V : Type) (keqb : K -> K -> bool) veqb (m : list (K * V)) : decides veqb ->
  (NoDup (map snd m) -> bijection veqb m = Ok m) /\
  (~ NoDup (map snd m) -> bijection veqb m = Raise (OtherError "InjectiveTypeError")).
Proof. intros D. split; [apply (bijection_nodup veqb D) | apply (bijection_rejects veqb D)]. Qed.
Print Assumptions C13_construction.
Theorem C13_invert_twice (K V : Type) keqb veqb (m b : list (K * V)) : decides keqb -> decides veqb ->
  NoDup (map fst m) -> bijection veqb m = Ok b ->
  exists i, invert keqb veqb b = Ok i /\ invert veqb keqb i = Ok b.
Proof.
  intros kd vd NK H. apply (bijection_ok veqb vd) in H as [-> NV].
  exists (map (fun kv => (snd kv, fst kv)) m). split; [apply invert_ok; assumption|].
  rewrite (invert_ok veqb keqb vd kd).
  - rewrite map_map. f_equal. rewrite <- (map_id m) at 2. apply map_ext. intros []. reflexivity.
  - rewrite map_map. exact NV.
  - rewrite map_map. exact NK.
Qed.
Print Assumptions C13_invert_twice.
Theorem C13_find_inverts_lookup (K V : Type) keqb veqb (m b : list (K * V)) : decides keqb -> decides veqb ->
  NoDup (map fst m) -> bijection veqb m = Ok b ->
  forall k v d, (bij_find keqb veqb b v None = Ok k <-> lookup keqb b k = Ok v) /\
    (bij_find keqb veqb b v None = Raise KeyError <-> forall x, lookup keqb b x <> Ok v) /\
    bij_find keqb veqb b v (Some d) = match bij_find keqb veqb b v None with Ok x => Ok x | Raise _ => Ok d end.
Proof.
  intros kd vd NK H k v d. apply (bijection_ok veqb vd) in H as [-> NV]. unfold bij_find.
  rewrite (invert_ok keqb veqb kd vd m NK NV). cbn [bind]. set (i := map (fun kv => (snd kv, fst kv)) m).
  assert (NI : NoDup (map fst i)) by (unfold i; rewrite map_map; exact NV).
  assert (IN : forall x y, In (y, x) i <-> In (x, y) m).
  { intros x y. unfold i. rewrite in_map_iff. split; [intros ((a & b0) & E & I); injection E as -> ->; exact I | intros I; exists (x, y); auto]. }
  split; [|split].
  - rewrite (lookup_in keqb kd m k v NK), <- IN, <- (lookup_in veqb vd i v k NI). destruct (lookup veqb i v); split; congruence.
  - destruct (lookup veqb i v) as [x|e] eqn:L.
    + split; [discriminate|]. intros X. exfalso. apply (X x). apply (lookup_in keqb kd m x v NK), IN, (lookup_in veqb vd i v x NI), L.
    + pose proof L as L0. apply (lookup_missing veqb vd) in L as [-> L]. split; [|reflexivity].
      intros _ x X. apply (lookup_in keqb kd m x v NK), IN in X. apply L. apply (in_map fst) in X. exact X.
  - destruct (lookup veqb i v); reflexivity.
Qed.
Print Assumptions C13_find_inverts_lookup.
Example C13_case : let m := [(s "add", 1); (s "sub", 2)] in
  NoDup (map fst m) /\ bijection Nat.eqb m = Ok m /\ bij_find str_eqb Nat.eqb m 2 None = Ok (s "sub") /\
  bijection Nat.eqb [(s "a", 1); (s "b", 1)] = Raise (OtherError "InjectiveTypeError").
Proof. repeat split. cbv. repeat constructor; simpl; intuition discriminate. Qed.

(** ** C14: tables *)
Theorem C14_find (V : Type) veqb (t : list (row V)) (v : V) : decides veqb ->
  match table_find veqb t v with
  | Ok found => subseq found t /\ (forall r, In r found <-> In r t /\ In v (map snd r)) /\ found <> []
  | Raise e => e = OtherError "MissingValueError" /\ forall r, In r t -> ~ In v (map snd r)
  end.
Proof.
  intros D. unfold table_find. destruct (filter (fun r => mem veqb v (map snd r)) t) as [|r l] eqn:E.
  - split; [reflexivity|]. intros r Hr Hv. pose proof (filter_nil_none _ _ E r Hr) as M. cbn beta in M.
    apply (mem_false veqb D) in M. auto.
  - split; [rewrite <- E; apply subseq_filter|]. split; [|discriminate]. intros x. rewrite <- E, filter_In, (mem_spec veqb D). reflexivity.
Qed.
Print Assumptions C14_find.
Theorem C14_find_unique (V : Type) veqb (t : list (row V)) (v : V) : decides veqb ->
  match table_find_unique veqb t v with
  | Ok r => exists a b, t = a ++ r :: b /\ In v (map snd r) /\ forall x, In x (a ++ b) -> ~ In v (map snd x)
  | Raise e => e = OtherError "MissingValueError" \/ e = OtherError "AmbiguousValueError"
  end.
Proof.
  intros D. unfold table_find_unique. destruct (filter (fun r => mem veqb v (map snd r)) t) as [|r [|r2 l]] eqn:E; auto.
  apply filter_cons_split in E as (a & b & -> & F & N & R). exists a, b. split; [reflexivity|].
  split; [apply (mem_spec veqb D), F|]. intros x Hx. apply (mem_false veqb D). apply in_app_iff in Hx as [Hx|Hx]; [apply N, Hx|].
  apply (filter_nil_none _ _ R x Hx).
Qed.
Print Assumptions C14_find_unique.
(** A strict call returns the one row that matches every requested pair, and
    every requested key must be common to all rows. *)
Theorem C14_strict_call (V : Type) veqb (t : list (row V)) request r : t <> [] ->
  table_call veqb t true request = Ok r <->
  (forall kv x, In kv request -> In x t -> has_key x (fst kv) = true) /\
  filter (fun x => forallb (fun kv => row_matches veqb kv x) request) t = [r].
Proof.
  intros NE. unfold table_call. split.
  - intros H. apply call_strict_from in H. tauto.
  - intros [H1 H2]. apply call_strict_complete; assumption.
Qed.
Print Assumptions C14_strict_call.
(** A default call returns the only row that matches some leading part of the
    request. *)
Theorem C14_default_call (V : Type) veqb (t : list (row V)) request r :
  table_call veqb t false request = Ok r ->
  exists pre post, request = pre ++ post /\ pre <> [] /\
    filter (fun x => forallb (fun kv => row_matches veqb kv x) pre) t = [r].
Proof. apply call_loose_from. Qed.
Print Assumptions C14_default_call.
(** It can fail although the request determines one row, *)
Theorem C14_default_call_complete_refuted : exists (t : list (row nat)) request r,
  table_call Nat.eqb t true request = Ok r /\ table_call Nat.eqb t false request = Raise (OtherError "AmbiguousRequestError").
Proof.
  exists [[(s "a", 1); (s "b", 1)]; [(s "a", 1); (s "b", 2)]; [(s "a", 2); (s "b", 1)]; [(s "a", 3); (s "b", 1)]],
         [(s "a", 1); (s "b", 1)], [(s "a", 1); (s "b", 1)]. split; reflexivity.
Qed.
Print Assumptions C14_default_call_complete_refuted.
(** and it can return a row that contradicts the rest of the request. *)
Theorem C14_default_call_sound_refuted : exists (t : list (row nat)) request r,
  table_call Nat.eqb t false request = Ok r /\ forallb (fun kv => row_matches Nat.eqb kv r) request = false.
Proof.
  exists [[(s "a", 1); (s "b", 1)]; [(s "a", 2); (s "b", 2)]], [(s "a", 1); (s "b", 2)], [(s "a", 1); (s "b", 1)].
  split; reflexivity.
Qed.
Print Assumptions C14_default_call_sound_refuted.
Example C14_case : let t := [[(s "symbol", 1); (s "mass", 4)]; [(s "symbol", 2); (s "mass", 4)]; [(s "symbol", 3); (s "mass", 5)]] in
  table_find Nat.eqb t 4 = Ok (firstn 2 t) /\ table_find_unique Nat.eqb t 4 = Raise (OtherError "AmbiguousValueError") /\
  table_call Nat.eqb t true [(s "mass", 4); (s "symbol", 2)] = Ok [(s "symbol", 2); (s "mass", 4)].
Proof. repeat split. Qed.

(** ** C50: registries *)
Theorem C50_registration_is_kept_partial (O : Type) (base : list (str * O)) (os1 os2 : list (reg_op O)) (o : reg_op O) :
  NoDup (map fst base) -> (forall k, In k (map fst base) -> ~ looks_numbered k) ->
  Forall plain_op (os1 ++ o :: os2) ->
  let key := op_key (run_ops (new_registry base) os1) o in
  reg_get (run_ops (new_registry base) os1) key = Raise KeyError /\
  reg_get (run_ops (new_registry base) (os1 ++ o :: os2)) key = Ok (op_obj o).
Proof.
  intros ND B. apply registry_history. intros k Hk. cbn [new_registry reg_items] in Hk.
  rewrite (dict_of_nodup str_eqb str_decides base ND) in Hk. left. apply B, Hk.
Qed.
Print Assumptions C50_registration_is_kept_partial.
Theorem C50_initial_objects_are_kept_partial (O : Type) (base : list (str * O)) (os : list (reg_op O)) k v :
  NoDup (map fst base) -> (forall k, In k (map fst base) -> ~ looks_numbered k) -> Forall plain_op os ->
  In (k, v) base -> reg_get (run_ops (new_registry base) os) k = Ok v.
Proof.
  intros ND B F H. apply base_kept; [|exact F|].
  - intros x Hx. cbn [new_registry reg_items] in Hx. rewrite (dict_of_nodup str_eqb str_decides base ND) in Hx. left. apply B, Hx.
  - unfold reg_get. cbn [new_registry reg_items]. rewrite (dict_of_nodup str_eqb str_decides base ND).
    apply (lookup_in str_eqb str_decides base k v ND), H.
Qed.
Print Assumptions C50_initial_objects_are_kept_partial.
(** [reset] restores the initial objects, whatever was registered. *)
Theorem C50_reset (O : Type) (base : list (str * O)) (os : list (reg_op O)) k :
  reg_get (reset (run_ops (new_registry base) os)) k = reg_get (new_registry base) k.
Proof.
  assert (G : forall r, reg_init (run_ops r os) = reg_init r).
  { induction os as [|o os IH]; intros r; [reflexivity|]. cbn [run_ops fold_left]. unfold run_ops in IH. rewrite IH. unfold run_op, register. destruct mapping_key. reflexivity. }
  unfold reg_get, reset. cbn [reg_items]. rewrite G. reflexivity.
Qed.
Print Assumptions C50_reset.
(** A generated key can hit an existing one: the older object is lost. *)
Theorem C50_overwrite_refuted : exists os1 (o : reg_op nat) os2,
  let key := op_key (run_ops (new_registry []) os1) o in
  reg_get (run_ops (new_registry []) (os1 ++ o :: os2)) key <> Ok (op_obj o).
Proof.
  exists [], {| op_obj := 0; op_name := s "f_1"; op_user := None |},
    [{| op_obj := 1; op_name := s "f"; op_user := None |}; {| op_obj := 2; op_name := s "f"; op_user := None |}].
  discriminate.
Qed.
Print Assumptions C50_overwrite_refuted.
Definition regs := [{| op_obj := 1; op_name := s "f"; op_user := None |}; {| op_obj := 2; op_name := s "f"; op_user := None |};
                    {| op_obj := 3; op_name := s "f"; op_user := Some (s "g") |}].
Lemma no_underscore_plain k : ~ In "_"%char k -> ~ looks_numbered k.
Proof. intros N (p & n & ->). apply N. unfold numbered_key. apply in_app_iff. right. left. reflexivity. Qed.
Example C50_case : Forall plain_op regs /\ reg_get (run_ops (new_registry [(s "f", 0)]) regs) (s "f_2") = Ok 2.
Proof.
  split; [|reflexivity].
  repeat constructor; cbn; try exact I; apply no_underscore_plain; simpl; intuition discriminate.
Qed.

(** ** C52: slices as ranges *)
Theorem C52_slice_to_range_partial (start stop step : option Z) (n : Z) :
  (match start with Some z => 0 <= z <= n | None => 0 <= n end)%Z ->
  (match stop with Some z => 0 <= z <= n | None => 0 <= n end)%Z ->
  (match step with Some z => 0 < z | None => True end)%Z ->
  exists l, slice2range {| sl_start := start; sl_stop := stop; sl_step := step |} (Some n) = Ok l /\
    selects start stop step n l /\ forall l', selects start stop step n l' -> l' = l.
Proof.
  intros Hs He Ht. unfold slice2range. cbn [sl_start sl_stop sl_step].
  set (st := match step with Some z => z | None => 1%Z end).
  assert (P : (0 < st)%Z) by (unfold st; destruct step; lia).
  assert (Est : or_z step 1 = st) by (unfold st; destruct step as [[|p|p]|]; try reflexivity; lia).
  assert (Es : or_z start 0 = slice_first start st n).
  { unfold slice_first, or_z. rewrite (proj2 (Z.ltb_lt 0 st) P). destruct start as [z|]; [|reflexivity].
    unfold clamp, from_end. destruct (Z.ltb_spec z 0); [lia|]. destruct z; lia. }
  assert (Ee : match stop with Some e => e | None => n end = slice_last stop st n).
  { unfold slice_last. rewrite (proj2 (Z.ltb_lt 0 st) P). destruct stop as [z|]; [|reflexivity].
    unfold clamp, from_end. destruct (Z.ltb_spec z 0); lia. }
  exists (range_list (slice_first start st n) (slice_last stop st n) st).
  assert (S : selects start stop step n (range_list (slice_first start st n) (slice_last stop st n) st)).
  { unfold selects. fold st. split; [lia | apply range_list_up, P]. }
  rewrite Est, Es. split; [destruct stop; rewrite <- Ee; reflexivity|]. split; [exact S|].
  intros l' S'. destruct S as [_ S], S' as [_ S']. eapply enumerates_unique; eassumption.
Qed.
Print Assumptions C52_slice_to_range_partial.
Theorem C52_unbounded_slice_raises start step :
  slice2range {| sl_start := start; sl_stop := None; sl_step := step |} None = Raise TypeError.
Proof. reflexivity. Qed.
Print Assumptions C52_unbounded_slice_raises.
(** Negative bounds, negative steps and stops past the end are not handled. *)
Theorem C52_negative_start_refuted : exists l,
  slice2range {| sl_start := Some (-1)%Z; sl_stop := None; sl_step := None |} (Some 3)%Z = Ok l /\
  ~ selects (Some (-1)%Z) None None 3 l.
Proof.
  eexists. split; [reflexivity|]. intros [_ [H _]]. specialize (H 0 (-1)%Z eq_refl). discriminate H.
Qed.
Print Assumptions C52_negative_start_refuted.
Theorem C52_negative_step_refuted : exists l,
  slice2range {| sl_start := None; sl_stop := None; sl_step := Some (-1)%Z |} (Some 3)%Z = Ok l /\
  ~ selects None None (Some (-1)%Z) 3 l.
Proof. eexists. split; [reflexivity|]. intros [_ [_ H]]. specialize (H 0). cbn in H. lia. Qed.
Print Assumptions C52_negative_step_refuted.
Theorem C52_stop_past_end_refuted : exists l,
  slice2range {| sl_start := None; sl_stop := Some 4%Z; sl_step := None |} (Some 3)%Z = Ok l /\
  ~ selects None (Some 4%Z) None 3 l.
Proof. eexists. split; [reflexivity|]. intros [_ [_ H]]. pose proof (proj1 (H 3) ltac:(vm_compute; lia)) as X. discriminate X. Qed.
Print Assumptions C52_stop_past_end_refuted.
Example C52_case : slice2range {| sl_start := Some 1%Z; sl_stop := None; sl_step := Some 2%Z |} (Some 6%Z) = Ok [1; 3; 5]%Z.
Proof. reflexivity. Qed.

(** ** C54: wrapping *)
Theorem C54_unwrap (A : Type) (x : nested A) :
  (forall y, unwrap x <> Nest [y]) /\ unwrap (unwrap x) = unwrap x /\ unwrap (Nest [x]) = unwrap x.
Proof. split; [apply unwrap_not_single|]. split; [apply unwrap_idem | reflexivity]. Qed.
Print Assumptions C54_unwrap.
(** Unwrapping keeps the leaves. *)
Fixpoint leaves {A} (x : nested A) : list (A + str) :=
  match x with
  | Leaf a => [inl a]
  | Text t => [inr t]
  | Nest l => flat_map leaves l
  end.
Theorem C54_unwrap_keeps_leaves (A : Type) (x : nested A) :
  leaves (unwrap x) = leaves x /\ flat_map leaves (unwrap_new x) = leaves x.
Proof.
  assert (G : forall x : nested A, leaves (unwrap x) = leaves x).
  { fix IH 1. intros [a|t|[|y [|z l]]]; try reflexivity. cbn [unwrap leaves flat_map]. rewrite app_nil_r. apply IH. }
  split; [apply G|]. rewrite <- (G x). unfold unwrap_new. destruct (unwrap x); cbn [wrap flat_map leaves]; rewrite ?app_nil_r; reflexivity.
Qed.
Print Assumptions C54_unwrap_keeps_leaves.
(** The size of a nested list without strings is its number of leaves; a string
    anywhere below raises. *)
Theorem C54_size (A : Type) (l : list (nested A)) :
  size (Nest l) = if existsb (fun x => match x with inr _ => true | inl _ => false end) (leaves (Nest l))
                  then Raise TypeError else Ok (length (leaves (Nest l))).
Proof.
  assert (G : forall x : nested A, size x = match x with Leaf _ => Raise TypeError | _ =>
     if existsb (fun x => match x with inr _ => true | inl _ => false end) (leaves x)
     then Raise TypeError else Ok (length (leaves x)) end).
  { clear l. fix IH 1. intros [a|t|l]; try reflexivity. cbn [size leaves]. induction l as [|y l IHl]; [reflexivity|].
    cbn [flat_map]. rewrite existsb_app, app_length. rewrite IHl.
    assert (Y : match y with Leaf _ => Ok 1 | _ => size y end =
      if existsb (fun x => match x with inr _ => true | inl _ => false end) (leaves y) then Raise TypeError else Ok (length (leaves y))).
    { specialize (IH y). destruct y as [a|t|l']; [reflexivity | reflexivity | exact IH]. }
    rewrite Y. destruct (existsb _ (leaves y)); cbn [bind orb]; [reflexivity|].
    destruct (existsb _ (flat_map leaves l)); reflexivity. }
  apply (G (Nest l)).
Qed.
Print Assumptions C54_size.
Example C54_case : unwrap (Nest [Nest [Nest [Leaf 1; Leaf 2]]]) = Nest [Leaf 1; Leaf 2] /\
  size (Nest [Leaf 1; Nest [Leaf 2; Nest []; Leaf 3]]) = Ok 3.
Proof. split; reflexivity. Qed.
