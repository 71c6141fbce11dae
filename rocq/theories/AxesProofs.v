(** Proofs about named axes. *)
From Verif Require Import PyBase PyLemmas ContainerModel ContainerSpec ContainerProofs ContainerProofs2 Nd IndexModel IndexProofs IndexProofs2 ArrayModel AxesModel AxesSpec.
From Coq Require Import Lia Permutation.

Lemma smem_spec x l : smem x l = true <-> In x l.
Proof. apply (mem_spec str_eqb str_decides). Qed.
Lemma smem_false x l : smem x l = false <-> ~ In x l.
Proof. apply (mem_false str_eqb str_decides). Qed.
Lemma subset_spec a b : subset a b = true <-> forall x, In x a -> In x b.
Proof. unfold subset. rewrite forallb_forall. split; intros H x Hx; apply smem_spec; auto. Qed.
Lemma subset_false a b : subset a b = false <-> exists x, In x a /\ ~ In x b.
Proof.
  split.
  - unfold subset. induction a as [|x a IH]; cbn [forallb]; [discriminate|]. destruct (smem x b) eqn:E; cbn [andb].
    + intros H. destruct (IH H) as (y & Hy & Ny). exists y. split; [now right|exact Ny].
    + intros _. exists x. split; [now left|now apply smem_false].
  - intros (x & Hx & Nx). destruct (subset a b) eqn:E; [|reflexivity]. exfalso. apply Nx. apply (proj1 (subset_spec a b) E), Hx.
Qed.
Lemma mismatch_ok a b : mismatch a b = Ok tt <-> ((forall x, In x a <-> In x b) \/ ((exists x, In x a /\ ~ In x b) /\ exists x, In x b /\ ~ In x a)).
Proof.
  unfold mismatch, dims_lt, dims_gt. destruct (subset a b) eqn:E1, (subset b a) eqn:E2; cbn [andb negb].
  - pose proof (proj1 (subset_spec _ _) E1). pose proof (proj1 (subset_spec _ _) E2). split; [left; split; auto|reflexivity].
  - pose proof (proj1 (subset_false _ _) E2) as (x & Hx & Nx). pose proof (proj1 (subset_spec _ _) E1) as I. split; [discriminate|].
    intros [H|[(y & Hy & Ny) _]]; [now apply H in Hx|now apply I in Hy].
  - pose proof (proj1 (subset_false _ _) E1) as (x & Hx & Nx). pose proof (proj1 (subset_spec _ _) E2) as I. split; [discriminate|].
    intros [H|[_ (y & Hy & Ny)]]; [now apply H in Hx|now apply I in Hy].
  - pose proof (proj1 (subset_false _ _) E1). pose proof (proj1 (subset_false _ _) E2). split; [right; split; auto|reflexivity].
Qed.

Lemma firsts_spec {A} (l u : list A) : firsts l u -> NoDup u /\ (forall x, In x u <-> In x l) /\ (NoDup l -> u = l).
Proof.
  induction 1 as [|l u x F (N & I & E) Nx|l u x F (N & I & E) Hx].
  - split; [constructor|]. split; [tauto|reflexivity].
  - split; [|split].
    + apply nodup_app_iff. split; [exact N|]. split; [constructor; [auto|constructor]|].
      intros y Hy [<-|[]]. apply Nx, I, Hy.
    + intros y. rewrite !in_app_iff, I. tauto.
    + intros ND. apply nodup_app_iff in ND as (N1 & _). rewrite E by exact N1. reflexivity.
  - split; [exact N|]. split.
    + intros y. rewrite in_app_iff, I. split; [tauto|]. intros [H|[<-|[]]]; auto.
    + intros ND. exfalso. apply nodup_app_iff in ND as (_ & _ & D). apply (D x Hx). now left.
Qed.
Lemma unique_firsts l : firsts l (unique_items str_eqb l).
Proof.
  assert (G : forall items c l0, firsts l0 c -> firsts (l0 ++ items) (unique_loop str_eqb c items)).
  { induction items as [|y items IH]; intros c l0 F; cbn [unique_loop]; [now rewrite app_nil_r|].
    destruct (firsts_spec _ _ F) as (N & I & _). destruct (mem str_eqb y c) eqn:E.
    - apply smem_spec in E. change (y :: items) with ([y] ++ items). rewrite app_assoc. apply IH. apply F_old; [exact F|]. apply I, E.
    - pose proof (proj1 (smem_false _ _) E) as E'. change (y :: items) with ([y] ++ items). rewrite app_assoc. apply IH.
      apply F_new; [exact F|]. now rewrite <- I. }
  exact (G l [] [] F_nil).
Qed.

Section Axes.
Context {B : Type}.
Implicit Types (a b r : axes B).
Set Default Proof Using "Type".

Lemma pair_of a d : has a d -> exists v, In (d, v) a.
Proof. intros H. apply in_map_iff in H as ([k v] & <- & H). eauto. Qed.
Lemma named_unique a d v w : named a -> In (d, v) a -> In (d, w) a -> v = w.
Proof.
  intros N H1 H2. pose proof (proj2 (lookup_in str_eqb str_decides a d v N) H1).
  pose proof (proj2 (lookup_in str_eqb str_decides a d w N) H2). congruence.
Qed.
Lemma axis_named_in a d v : named a -> (axis_named a d = Ok v <-> In (d, v) a).
Proof. intros N. apply (lookup_in str_eqb str_decides); exact N. Qed.
Lemma axis_named_raise a d e : axis_named a d = Raise e <-> e = KeyError /\ ~ has a d.
Proof. apply (lookup_missing str_eqb str_decides). Qed.

(** Looking up a list of names. *)
Lemma pick_ok a ds r : named a -> mapM (fun d => v <- axis_named a d ;; Ok (d, v)) ds = Ok r ->
  map fst r = ds /\ forall k v, In (k, v) r -> In (k, v) a.
Proof.
  intros N. revert r. induction ds as [|d ds IH]; intros r H; cbn [mapM] in H; [injection H as <-; split; [reflexivity|intros ? ? []]|].
  destruct (axis_named a d) as [v|] eqn:E; cbn [bind] in H; [|discriminate].
  destruct (mapM _ ds) as [l|] eqn:M; cbn [bind] in H; [|discriminate]. injection H as <-.
  destruct (IH l eq_refl) as (F & I). cbn [map fst]. split; [now rewrite F|].
  intros k w [E'|H]; [injection E' as <- <-; now apply axis_named_in|now apply I].
Qed.
Lemma pick_total a ds : named a -> (forall d, In d ds -> has a d) -> exists r, mapM (fun d => v <- axis_named a d ;; Ok (d, v)) ds = Ok r.
Proof.
  intros N H. apply mapM_total. intros d Hd. destruct (pair_of a d (H d Hd)) as (v & Hv).
  apply axis_named_in in Hv; [|exact N]. rewrite Hv. cbn. eauto.
Qed.
Lemma pick_raise a ds d : In d ds -> ~ has a d -> mapM (fun d => v <- axis_named a d ;; Ok (d, v)) ds = Raise KeyError.
Proof.
  intros H Nd. induction ds as [|x ds IH]; [destruct H|]. cbn [mapM]. destruct (axis_named a x) as [v|e] eqn:E.
  - cbn [bind]. destruct H as [->|H].
    + exfalso. pose proof (proj2 (axis_named_raise a d KeyError) (conj eq_refl Nd)). congruence.
    + rewrite (IH H). reflexivity.
  - cbn [bind]. apply axis_named_raise in E as [-> _]. reflexivity.
Qed.
Lemma perm_of a r : named a -> NoDup (map fst r) -> (forall k v, In (k, v) r -> In (k, v) a) ->
  (forall d, has a d -> has r d) -> Permutation a r.
Proof.
  intros N NR I C. apply NoDup_Permutation.
  - apply NoDup_map_inv with (f := fst), N.
  - apply NoDup_map_inv with (f := fst), NR.
  - intros [k v]. split; [|apply I]. intros H. assert (has a k) as Hk by (apply in_map_iff; now exists (k, v)).
    apply C, pair_of in Hk as (w & Hw). rewrite (named_unique a k v w N H (I _ _ Hw)). exact Hw.
Qed.

(** permute *)
Lemma permute_names_ok a l r : named a -> permute a (ByName l) = Ok r ->
  Permutation a r /\ firsts l (map fst r) /\ (forall x, In x l <-> has a x).
Proof.
  intros N. unfold permute, permute_dimensions. destruct l as [|x0 l0] eqn:El; [discriminate|]. rewrite <- El in *. clear El.
  destruct (mismatch (anames_of a) l) as [[]|] eqn:M; cbn [bind]; [|discriminate]. cbn [names dimensions_factory]. intros H.
  pose proof (unique_firsts l) as F. destruct (firsts_spec _ _ F) as (NU & IU & _).
  pose proof (pick_ok a _ r N H) as (Ef & I).
  assert (forall x, In x l -> has a x) as Sub.
  { intros x Hx. apply IU in Hx. rewrite <- Ef in Hx. apply in_map_iff in Hx as ([k v] & <- & Hk). apply in_map_iff. exists (k, v). split; [reflexivity|]. now apply I. }
  assert (forall x, In x l <-> has a x) as Eq.
  { apply mismatch_ok in M as [M|[_ (x & Hx & Nx)]]; [intros x; split; [apply Sub|]; apply M|]. exfalso. now apply Nx, Sub. }
  split; [|split; [now rewrite Ef|exact Eq]].
  apply perm_of; [exact N|now rewrite Ef|exact I|]. intros d Hd. unfold has. rewrite Ef. apply IU, Eq, Hd.
Qed.
Lemma permute_names_accepts a l : named a -> ((exists r, permute a (ByName l) = Ok r) <-> l <> [] /\ forall x, In x l <-> has a x).
Proof.
  intros N. split.
  - intros (r & H). split; [|now apply (permute_names_ok a l r N)]. intros ->. discriminate.
  - intros (NE & Eq). unfold permute, permute_dimensions. destruct l as [|x0 l0] eqn:El; [congruence|]. rewrite <- El in *. clear El.
    assert (mismatch (anames_of a) l = Ok tt) as -> by (apply mismatch_ok; left; intros x; now rewrite Eq). cbn [bind names dimensions_factory].
    apply pick_total; [exact N|]. intros d Hd. apply Eq. now apply (firsts_spec _ _ (unique_firsts l)).
Qed.
Lemma name_at_ok (l : list str) z x : name_at l z = Ok x <-> exists i, norm_index (length l) z = Some i /\ nth_error l i = Some x.
Proof.
  unfold name_at. destruct (norm_index _ z) as [i|]; [|split; [discriminate|intros (i & H & _); discriminate]].
  destruct (nth_error l i) as [y|] eqn:E.
  - split; [intros H; injection H as <-; eauto|]. intros (j & J & H). injection J as <-. congruence.
  - split; [discriminate|]. intros (j & J & H). injection J as <-. congruence.
Qed.
Lemma named_ats (l : list Z) (ns ds : list str) : mapM (name_at ns) l = Ok ds <->
  Forall2 (fun z d => exists i, norm_index (length ns) z = Some i /\ nth_error ns i = Some d) l ds.
Proof.
  revert ds. induction l as [|z l IH]; intros ds; cbn [mapM].
  - split; [intros M; injection M as <-; constructor|]. intros F. inversion F. reflexivity.
  - split.
    + intros M. destruct (name_at ns z) as [d|] eqn:E; cbn [bind] in M; [|discriminate].
      destruct (mapM _ l) as [ds'|] eqn:Ml; cbn [bind] in M; [|discriminate].
      injection M as <-. constructor; [|now apply IH]. now apply name_at_ok in E.
    + intros F. inversion F as [|? d ? ds' H F']; subst. apply name_at_ok in H. apply IH in F'. rewrite H, F'. reflexivity.
Qed.
Lemma permute_by_index a l ds : mapM (name_at (anames_of a)) l = Ok ds -> permute a (ByIndex l) = permute a (ByName ds).
Proof.
  intros M. unfold permute, permute_dimensions. destruct l as [|x0 l0].
  - injection M as <-. reflexivity.
  - destruct ds as [|d ds].
    + apply named_ats in M. inversion M.
    + unfold dims_permute. rewrite M. cbn [bind]. destruct (mismatch _ _); reflexivity.
Qed.
Lemma permute_index_ok a l r : named a -> permute a (ByIndex l) = Ok r ->
  Permutation a r /\ exists ds, Forall2 (fun z d => exists i, norm_index (length a) z = Some i /\ nth_error (map fst a) i = Some d) l ds /\
    firsts ds (map fst r).
Proof.
  intros N H. destruct (mapM (name_at (anames_of a)) l) as [ds|e] eqn:M.
  - rewrite (permute_by_index a l ds M) in H. apply permute_names_ok in H as (P & F & _); [|exact N].
    split; [exact P|]. exists ds. split; [|exact F]. apply named_ats in M. unfold anames_of in M. rewrite map_length in M. exact M.
  - exfalso. unfold permute, permute_dimensions in H. destruct l as [|x0 l0]; [discriminate|]. unfold dims_permute in H. rewrite M in H. discriminate.
Qed.
Lemma norm_index_lt n z i : norm_index n z = Some i -> i < n.
Proof.
  unfold norm_index. set (j := if (z <? 0)%Z then (z + Z.of_nat n)%Z else z). clearbody j. cbn zeta.
  destruct (Z.ltb_spec j 0) as [?|H1]; [discriminate|]. destruct (Z.leb_spec (Z.of_nat n) j) as [?|H2]; [discriminate|].
  intros H. injection H as <-. lia.
Qed.
Lemma permute_index_accepts a l : named a -> ((exists r, permute a (ByIndex l) = Ok r) <->
  l <> [] /\ exists is, Forall2 (fun z i => norm_index (length a) z = Some i) l is /\ forall i, i < length a -> In i is).
Proof.
  intros N. split.
  - intros (r & H). split; [intros ->; discriminate|]. destruct (mapM (name_at (anames_of a)) l) as [ds|e] eqn:M.
    + rewrite (permute_by_index a l ds M) in H. apply permute_names_ok in H as (_ & _ & E); [|exact N]. apply named_ats in M.
      assert (exists is, Forall2 (fun z i => norm_index (length a) z = Some i) l is /\ Forall2 (fun i d => nth_error (map fst a) i = Some d) is ds) as (is & F1 & F2).
      { clear E. induction M as [|z d l ds (i & H1 & H2) M (is & F1 & F2)]; [exists []; split; constructor|]. exists (i :: is). unfold anames_of in *. rewrite map_length in *.
        split; constructor; auto. }
      exists is. split; [exact F1|]. intros i Hi. rewrite <- (map_length fst) in Hi.
      destruct (nth_error (map fst a) i) as [d|] eqn:Ei; [|apply nth_error_None in Ei; lia].
      assert (In d ds) as Hd by (apply E; eapply nth_error_In; eauto).
      clear - F2 Hd Ei N. induction F2 as [|j d' is ds Hj F2 IH]; [destruct Hd|]. destruct Hd as [->|Hd]; [left|right; auto].
      rewrite <- Hj in Ei. apply (proj1 (NoDup_nth_error (map fst a)) N); [|exact (eq_sym Ei)]. apply nth_error_Some. congruence.
    + exfalso. unfold permute, permute_dimensions in H. destruct l as [|x0 l0]; [discriminate|]. unfold dims_permute in H. rewrite M in H. discriminate.
  - intros (NE & is & F & C).
    assert (exists ds, mapM (name_at (anames_of a)) l = Ok ds /\ Forall2 (fun i d => nth_error (map fst a) i = Some d) is ds) as (ds & M & F2).
    { clear C NE. induction F as [|z i l is Hz F (ds & M & F2)]; [exists []; split; [reflexivity|constructor]|].
      destruct (nth_error (map fst a) i) as [d|] eqn:E; [|apply nth_error_None in E; rewrite map_length in E; apply norm_index_lt in Hz; lia].
      exists (d :: ds). split; [|constructor; auto]. cbn [mapM]. rewrite M.
      assert (name_at (anames_of a) z = Ok d) as -> by (apply name_at_ok; exists i; unfold anames_of; now rewrite map_length). reflexivity. }
    rewrite (permute_by_index a l ds M). apply permute_names_accepts; [exact N|]. split; [intros ->; destruct l; [congruence|apply named_ats in M; inversion M]|].
    intros x. split.
    + intros Hx. clear - F2 Hx. induction F2 as [|i d is ds Hi F2 IH]; [destruct Hx|]. destruct Hx as [->|Hx]; [eapply nth_error_In; eauto|auto].
    + intros Hx. apply In_nth_error in Hx as (i & Hi). assert (In i is) as Hin by (apply C; rewrite <- (map_length fst); apply nth_error_Some; congruence).
      clear - F2 Hin Hi. induction F2 as [|j d is ds Hj F2 IH]; [destruct Hin|]. destruct Hin as [->|Hin]; [left; congruence|right; auto].
Qed.

(** extract *)
Lemma dict_of_picks a l : named a -> (forall k v, In (k, v) l -> In (k, v) a) ->
  firsts (map fst l) (map fst (dict_of str_eqb l)) /\ forall k v, In (k, v) (dict_of str_eqb l) -> In (k, v) a.
Proof.
  intros N. assert (forall l d u, firsts u (map fst d) -> (forall k v, In (k, v) (d ++ l) -> In (k, v) a) ->
    let r := fold_left (fun d kv => dict_put str_eqb d (fst kv) (snd kv)) l d in
    firsts (u ++ map fst l) (map fst r) /\ forall k v, In (k, v) r -> In (k, v) a) as G.
  - clear l. induction l as [|[k v] l IH]; intros d u F I; cbn [fold_left fst snd map].
    + cbn. rewrite app_nil_r. split; [exact F|]. intros k v H. apply I. now rewrite app_nil_r.
    + destruct (firsts_spec _ _ F) as (ND & E & _). destruct (in_dec str_eq_dec k (map fst d)) as [Hk|Nk].
      * assert (dict_put str_eqb d k v = d) as ->.
        { clear IH F E. induction d as [|[h w] d IHd]; [destruct Hk|]. cbn [dict_put]. destruct (str_eqb_spec h k) as [->|Ne].
          - f_equal. f_equal. apply (named_unique a k); [exact N|apply I; apply in_or_app; right; now left|apply I; now left].
          - f_equal. apply IHd; [intros x y H; apply I; now right|now inversion ND|]. destruct Hk as [Hk|Hk]; [now destruct Ne|exact Hk]. }
        destruct (IH d (u ++ [k])) as (F' & I').
        { apply F_old; [exact F|]. now apply E. }
        { intros x y H. apply I. apply in_app_iff in H as [H|H]; apply in_or_app; [now left|right; now right]. }
        split; [|exact I']. rewrite <- app_assoc in F'. exact F'.
      * rewrite (dict_put_new str_eqb str_decides d k v Nk). destruct (IH (d ++ [(k, v)]) (u ++ [k])) as (F' & I').
        { rewrite map_app. apply F_new; [exact F|]. now rewrite <- E. }
        { intros x y H. apply I. now rewrite <- app_assoc in H. }
        split; [|exact I']. rewrite <- app_assoc in F'. exact F'.
  - intros I. apply (G l [] []); [constructor|exact I].
Qed.
Lemma extract_ok a ds r : named a -> extract a ds = Ok r ->
  ds <> [] /\ firsts ds (map fst r) /\ (forall k v, In (k, v) r -> In (k, v) a).
Proof.
  intros N. unfold extract. destruct ds as [|d0 ds0] eqn:E; [discriminate|]. rewrite <- E in *.
  destruct (mapM _ ds) as [l|] eqn:M; cbn [bind]; [|discriminate]. intros H. injection H as <-.
  apply pick_ok in M as (F & I); [|exact N]. destruct (dict_of_picks a l N I) as (F' & I'). rewrite F in F'. split; [now rewrite E|]. split; [exact F'|exact I'].
Qed.
Lemma extract_accepts a ds : named a ->
  ((exists r, extract a ds = Ok r) <-> ds <> [] /\ forall d, In d ds -> has a d) /\
  ((exists d, In d ds /\ ~ has a d) -> extract a ds = Raise KeyError).
Proof.
  intros N. assert (forall d, In d ds -> ~ has a d -> extract a ds = Raise KeyError) as R.
  { intros d Hd Nd. unfold extract. destruct ds as [|d0 ds0] eqn:E; [destruct Hd|]. rewrite <- E in *. rewrite (pick_raise a ds d Hd Nd). reflexivity. }
  split; [|intros (d & Hd & Nd); eauto]. split.
  - intros (r & H). split; [intros ->; discriminate|]. intros d Hd. destruct (in_dec str_eq_dec d (map fst a)) as [|Nd]; [assumption|].
    rewrite (R d Hd Nd) in H. discriminate.
  - intros (NE & I). unfold extract. destruct ds as [|d0 ds0] eqn:E; [congruence|]. rewrite <- E in *.
    destruct (pick_total a ds N I) as (l & ->). cbn. eauto.
Qed.

(** without *)
Lemma without_ok a d strict r : without a d strict = Ok r ->
  subseq r a /\ (forall k v, In (k, v) r <-> In (k, v) a /\ k <> d) /\ (strict = true -> has a d).
Proof.
  unfold without. destruct (strict && negb _) eqn:E; [discriminate|]. intros H. injection H as <-. split; [apply subseq_filter|]. split.
  - intros k v. rewrite filter_In. cbn [fst]. rewrite Bool.negb_true_iff, str_eqb_neq. reflexivity.
  - intros ->. cbn [andb] in E. apply Bool.negb_false_iff, smem_spec in E. exact E.
Qed.

(** replace *)
Lemma replace_axis_ok l1 l2 (d : str) (v new : B) : named (l1 ++ (d, v) :: l2) ->
  replace_axis (l1 ++ (d, v) :: l2) d new = Ok (l1 ++ (d, new) :: l2).
Proof.
  intros N. unfold replace_axis, anames_of. assert (smem d (map fst (l1 ++ (d, v) :: l2)) = true) as ->.
  { apply smem_spec, in_map_iff. exists (d, v). split; [reflexivity|]. apply in_or_app. right. now left. }
  unfold named in N. rewrite map_app in N. cbn [map fst] in N. pose proof (NoDup_remove_2 _ _ _ N) as Nd. rewrite <- map_app in Nd.
  assert (forall l, ~ In d (map fst l) -> map (fun kv : str * B => if str_eqb (fst kv) d then (fst kv, new) else kv) l = l) as Same.
  { induction l as [|[k w] l IH]; [reflexivity|]. cbn [map fst]. intros H. destruct (str_eqb_spec k d) as [->|_]; [exfalso; apply H; now left|].
    rewrite IH; [reflexivity|]. intros X. apply H. now right. }
  rewrite map_app in Nd. rewrite map_app. cbn [map fst]. rewrite str_eqb_refl, !Same; [reflexivity| |]; intros H; apply Nd, in_or_app; auto.
Qed.
Lemma replace_loop_app acc x y (d key : str) (new : B) :
  replace_loop acc (x ++ y) d key new = replace_loop (replace_loop acc x d key new) y d key new.
Proof. revert acc. induction x as [|[k v] x IH]; intros acc; cbn [app replace_loop]; [reflexivity|]. destruct (str_eqb k d); apply IH. Qed.
Lemma replace_loop_keep acc x (d key : str) (new : B) : NoDup (map fst (acc ++ x)) -> ~ In d (map fst x) ->
  replace_loop acc x d key new = acc ++ x.
Proof.
  revert acc. induction x as [|[k v] x IH]; intros acc N Nd; cbn [replace_loop]; [now rewrite app_nil_r|].
  destruct (str_eqb_spec k d) as [->|_]; [exfalso; apply Nd; now left|]. rewrite (dict_put_new str_eqb str_decides).
  - rewrite IH; [now rewrite <- app_assoc|now rewrite <- app_assoc|]. intros H. apply Nd. now right.
  - rewrite map_app in N. cbn [map fst] in N. intros H. apply (NoDup_remove_2 _ _ _ N). apply in_or_app. now left.
Qed.
Lemma replace_pair_ok l1 l2 (d key : str) (v new : B) : named (l1 ++ (d, v) :: l2) -> ~ In key (map fst (l1 ++ l2)) ->
  replace_pair (l1 ++ (d, v) :: l2) d key new = Ok (l1 ++ (key, new) :: l2).
Proof.
  intros N Nk. unfold replace_pair, anames_of. assert (smem d (map fst (l1 ++ (d, v) :: l2)) = true) as ->.
  { apply smem_spec, in_map_iff. exists (d, v). split; [reflexivity|]. apply in_or_app. right. now left. }
  f_equal. unfold named in N. rewrite map_app in N. cbn [map fst] in N. pose proof (NoDup_remove_2 _ _ _ N) as Nd. pose proof (NoDup_remove_1 _ _ _ N) as N'.
  rewrite map_app in Nk. rewrite replace_loop_app. rewrite (replace_loop_keep [] l1).
  - cbn [replace_loop app]. rewrite str_eqb_refl, (dict_put_new str_eqb str_decides) by (intros H; apply Nk, in_or_app; now left).
    rewrite replace_loop_keep; [now rewrite <- app_assoc| |].
    + rewrite <- app_assoc, map_app. cbn [app map fst]. apply NoDup_Add with (a := key) (l := map fst l1 ++ map fst l2); [apply Add_app|]. split; assumption.
    + intros H. apply Nd, in_or_app. now right.
  - cbn [app]. apply nodup_app_iff in N' as (N1 & _). exact N1.
  - intros H. apply Nd, in_or_app. now left.
Qed.
Lemma replace_missing a (d : str) : ~ has a d -> forall key (new : B), replace_axis a d new = Raise KeyError /\ replace_pair a d key new = Raise KeyError.
Proof. intros H key new. unfold replace_axis, replace_pair, anames_of. rewrite (proj2 (smem_false _ _) H). split; reflexivity. Qed.

(** insert *)
Lemma insert_loop_app acc i x y dim (new : B) loc :
  insert_loop acc i (x ++ y) dim new loc = insert_loop (insert_loop acc i x dim new loc) (i + length x) y dim new loc.
Proof.
  revert acc i. induction x as [|[k v] x IH]; intros acc i; cbn [app length insert_loop]; [now rewrite Nat.add_0_r|].
  rewrite Nat.add_succ_r, <- Nat.add_succ_l. apply IH.
Qed.
(** [loc] does not point into [x], the axes from position [i] *)
Definition away (loc : location) (i : nat) (x : axes B) : Prop :=
  match loc with
  | Before d | After d => ~ In d (map fst x)
  | Index z => (z < Z.of_nat i \/ Z.of_nat (i + length x) <= z)%Z
  | _ => True
  end.
Lemma insert_loop_away acc i x dim (new : B) loc : NoDup (map fst (acc ++ x)) -> away loc i x ->
  insert_loop acc i x dim new loc = acc ++ x.
Proof.
  revert acc i. induction x as [|[k v] x IH]; intros acc i N A; cbn [insert_loop]; [now rewrite app_nil_r|].
  assert (dict_put str_eqb acc k v = acc ++ [(k, v)]) as Put.
  { apply (dict_put_new str_eqb str_decides). rewrite map_app in N. cbn [map fst] in N. intros H. apply (NoDup_remove_2 _ _ _ N). apply in_or_app. now left. }
  assert (away loc (S i) x) as A'.
  { destruct loc; cbn [away map fst length In] in *; try exact I; try tauto. lia. }
  assert (insert_loop (dict_put str_eqb acc k v) (S i) x dim new loc = acc ++ (k, v) :: x) as Step.
  { rewrite Put, IH; [now rewrite <- app_assoc|now rewrite <- app_assoc|exact A']. }
  destruct loc as [|d|d|z|]; cbn [away map fst length In] in *; try exact Step.
  - destruct (str_eqb_spec k d) as [->|_]; [exfalso; apply A; now left|exact Step].
  - destruct (str_eqb_spec k d) as [->|_]; [exfalso; apply A; now left|exact Step].
  - destruct (Z.eqb_spec (Z.of_nat i) z) as [E|_]; [lia|exact Step].
Qed.
Lemma nodup_insert {A} (x y : list A) k : ~ In k (x ++ y) -> NoDup (x ++ y) -> NoDup (x ++ k :: y).
Proof. intros H N. apply NoDup_Add with (a := k) (l := x ++ y); [apply Add_app|]. split; assumption. Qed.
Lemma insert_index l1 l2 dim (new : B) : named (l1 ++ l2) -> ~ has (l1 ++ l2) dim -> l2 <> [] ->
  insert (l1 ++ l2) dim new (Index (Z.of_nat (length l1))) = Ok (l1 ++ (dim, new) :: l2).
Proof.
  intros N F NE. destruct l2 as [|[k v] l2]; [congruence|]. clear NE. unfold insert. f_equal. rewrite insert_loop_app. rewrite (insert_loop_away [] 0 l1).
  - cbn [app insert_loop plus]. rewrite Z.eqb_refl. unfold has, named in *. rewrite map_app in F, N. cbn [map fst] in F, N.
    assert (~ In dim (map fst l1)) as Nd by (intros H; apply F, in_or_app; now left).
    pose proof (NoDup_remove_2 _ _ _ N) as Nk.
    rewrite (dict_put_new str_eqb str_decides l1 dim) by exact Nd. rewrite (dict_put_new str_eqb str_decides).
    + rewrite insert_loop_away.
      * now rewrite <- !app_assoc.
      * rewrite <- !app_assoc. cbn [app]. rewrite map_app. cbn [map fst]. apply nodup_insert; assumption.
      * cbn [away]. lia.
    + rewrite map_app, in_app_iff. cbn [map fst In]. intros [H|[H|[]]]; [apply Nk, in_or_app; now left|]. apply F, in_or_app. right. left. congruence.
  - cbn [app]. unfold named in N. rewrite map_app in N. now apply nodup_app_iff in N.
  - cbn [away plus]. lia.
Qed.
Lemma insert_swapped l1 l2 d dim (v new : B) : named (l1 ++ (d, v) :: l2) -> ~ has (l1 ++ (d, v) :: l2) dim ->
  insert (l1 ++ (d, v) :: l2) dim new (Before d) = Ok (l1 ++ (d, v) :: (dim, new) :: l2) /\
  insert (l1 ++ (d, v) :: l2) dim new (After d) = Ok (l1 ++ (dim, new) :: (d, v) :: l2).
Proof.
  intros N F. unfold insert, has, named in *. rewrite map_app in F, N. cbn [map fst] in F, N.
  assert (~ In dim (map fst l1)) as Nd by (intros H; apply F, in_or_app; now left).
  assert (dim <> d) as Ne by (intros ->; apply F, in_or_app; right; now left).
  pose proof (NoDup_remove_2 _ _ _ N) as Nk. pose proof (NoDup_remove_1 _ _ _ N) as N1.
  assert (NoDup (map fst l1)) as N0 by now apply nodup_app_iff in N1.
  assert (~ In d (map fst l1)) as Nd1 by (intros H; apply Nk, in_or_app; now left).
  assert (~ In d (map fst l2)) as Nd2 by (intros H; apply Nk, in_or_app; now right).
  assert (~ In dim (map fst l1 ++ map fst l2)) as F'.
  { rewrite in_app_iff in F |- *. cbn [In] in F. tauto. }
  split; f_equal; rewrite insert_loop_app, (insert_loop_away [] 0 l1); try assumption; cbn [app insert_loop plus]; rewrite str_eqb_refl.
  - rewrite (dict_put_new str_eqb str_decides _ d) by exact Nd1. rewrite (dict_put_new str_eqb str_decides).
    + rewrite insert_loop_away; [now rewrite <- !app_assoc| |exact Nd2].
      rewrite <- !app_assoc. cbn [app]. rewrite map_app. cbn [map fst]. change (d :: dim :: map fst l2) with ([d] ++ dim :: map fst l2). rewrite app_assoc.
      apply nodup_insert; rewrite <- app_assoc; [exact F|exact N].
    + rewrite map_app, in_app_iff. cbn [map fst In]. intros [H|[H|[]]]; [auto|congruence].
  - rewrite (dict_put_new str_eqb str_decides _ dim) by exact Nd. rewrite (dict_put_new str_eqb str_decides).
    + rewrite insert_loop_away; [now rewrite <- !app_assoc| |exact Nd2].
      rewrite <- !app_assoc. cbn [app]. rewrite map_app. cbn [map fst]. apply nodup_insert; assumption.
    + rewrite map_app, in_app_iff. cbn [map fst In]. intros [H|[H|[]]]; [auto|congruence].
Qed.
Lemma insert_dropped a dim (new : B) loc : named a -> loc <> Anywhere -> away loc 0 a -> insert a dim new loc = Ok a.
Proof. intros N NA A. unfold insert. destruct loc; try congruence; f_equal; apply (insert_loop_away [] 0 a); assumption. Qed.

(** merging *)
Lemma mapM_get (g : str -> result B) keys : forall r, mapM (fun k => v <- g k ;; Ok (k, v)) keys = Ok r ->
  map fst r = keys /\ forall k v, In (k, v) r -> g k = Ok v.
Proof.
  induction keys as [|k keys IH]; intros r H; cbn [mapM] in H; [injection H as <-; split; [reflexivity|intros ? ? []]|].
  destruct (g k) as [w|] eqn:E; cbn [bind] in H; [|discriminate].
  destruct (mapM _ keys) as [l|] eqn:M; cbn [bind] in H; [|discriminate]. injection H as <-. destruct (IH l eq_refl) as (F & G).
  split; [cbn [map fst]; now f_equal|]. intros x v [X|X]; [injection X as <- <-; exact E|now apply G].
Qed.
Lemma axes_merge_ok a b r : named a -> named b -> axes_merge a b = Ok r ->
  named r /\ subseq (map fst a) (map fst r) /\ subseq (map fst b) (map fst r) /\
  (forall k v, In (k, v) r <-> In (k, v) b \/ (In (k, v) a /\ ~ has b k)).
Proof.
  intros NA NB. unfold axes_merge. destruct (merge _ _ _) as [keys|e] eqn:M; [|destruct e; discriminate].
  destruct (merge_ok str_eqb str_decides _ _ keys NA NB M) as (SA & SB & I & NK). intros H.
  set (get := fun k => if smem k (anames_of b) then axis_named b k else axis_named a k).
  pose proof (mapM_get get keys r H) as (Ek & G).
  assert (forall k v, get k = Ok v <-> (In (k, v) b \/ (In (k, v) a /\ ~ has b k))) as Gs.
  { intros k v. unfold get. destruct (smem k (anames_of b)) eqn:E.
    - apply smem_spec in E. rewrite (axis_named_in b k v NB). unfold has. tauto.
    - pose proof (proj1 (smem_false _ _) E) as E'. rewrite (axis_named_in a k v NA). split; [now right|]. intros [X|[X _]]; [|exact X].
      exfalso. apply E'. apply in_map_iff. now exists (k, v). }
  split; [now unfold named; rewrite Ek|]. rewrite Ek. split; [exact SA|]. split; [exact SB|].
  intros k v. rewrite <- Gs. split; [apply G|]. intros X. assert (In k (map fst r)) as Hk.
  { rewrite Ek. apply I. apply Gs in X as [X|[X _]]; [right|left]; apply in_map_iff; now exists (k, v). }
  apply in_map_iff in Hk as ([k' w] & <- & Hk). cbn [fst] in *. pose proof (G _ _ Hk). assert (v = w) as -> by congruence. exact Hk.
Qed.
Lemma merge_names a b : named a -> named b ->
  match axes_merge a b with
  | Ok r => merge str_eqb (map fst a) (map fst b) = Ok (map fst r)
  | Raise e => e = ValueError /\ merge str_eqb (map fst a) (map fst b) = Raise MergeError
  end.
Proof.
  intros NA NB. unfold axes_merge. change (@anames_of B) with (@map (str * B) str fst).
  destruct (merge_total str_eqb str_decides (map fst a) (map fst b) NA NB) as (r0 & E & [-> |(keys & ->)]); rewrite E; [split; reflexivity|].
  destruct (merge_ok str_eqb str_decides _ _ keys NA NB E) as (SA & SB & I & NK).
  set (f := fun k : str => _).
  assert (exists r, mapM f keys = Ok r) as (r & Hr).
  { apply mapM_total. intros k Hk. apply I in Hk. unfold f. destruct (smem k (map fst b)) eqn:Eb.
    - apply smem_spec in Eb. destruct (pair_of b k Eb) as (v & Hv). apply axis_named_in in Hv; [|exact NB]. rewrite Hv. cbn. eauto.
    - pose proof (proj1 (smem_false _ _) Eb) as N. destruct Hk as [Hk|Hk]; [|contradiction]. destruct (pair_of a k Hk) as (v & Hv).
      apply axis_named_in in Hv; [|exact NA]. rewrite Hv. cbn. eauto. }
  rewrite Hr. f_equal. symmetry. exact (proj1 (mapM_get _ keys r Hr)).
Qed.
Lemma insert_fresh a dim (new : B) : named a -> ~ has a dim -> insert a dim new Anywhere = Ok (a ++ [(dim, new)]).
Proof.
  intros N F. assert (merge str_eqb (map fst a) [dim] = Ok (map fst a ++ [dim])) as M.
  { unfold merge. destruct (existsb _ _) eqn:E; [|reflexivity]. exfalso. apply existsb_exists in E as (x & Hx & E). apply smem_spec in E as [<-|[]]. exact (F Hx). }
  pose proof (merge_names a [(dim, new)] N) as R. unfold insert. destruct (axes_merge a [(dim, new)]) as [r|e] eqn:E.
  2:{ exfalso. destruct R as [_ R]; [constructor; [intros []|constructor]|]. cbn [map fst] in R. congruence. }
  f_equal. assert (named [(dim, new)]) as N1 by (constructor; [intros []|constructor]).
  specialize (R N1). cbn [map fst] in R. rewrite M in R. injection R as R. destruct (axes_merge_ok a _ r N N1 E) as (NR & _ & _ & I).
  assert (named (a ++ [(dim, new)])) as NR2 by (unfold named; rewrite map_app; cbn [map fst]; rewrite R; exact NR).
  assert (map fst r = map fst (a ++ [(dim, new)])) as Ef by (rewrite map_app; exact (eq_sym R)).
  assert (forall k v, In (k, v) r -> In (k, v) (a ++ [(dim, new)])) as Sub.
  { intros k v H. apply I in H as [[H|[]]|[H _]]; apply in_or_app; [right; now left|now left]. }
  clear - Ef Sub NR2. revert Ef Sub. generalize (a ++ [(dim, new)]) NR2. clear. intros b N. revert r.
  induction b as [|[k v] b IH]; intros r Ef Sub; destruct r as [|[k' v'] r]; try discriminate; [reflexivity|].
  cbn [map fst] in Ef. injection Ef as -> Ef. inversion N as [|? ? Nk N']; subst. cbn [fst] in *. f_equal.
  - f_equal. destruct (Sub k v' (or_introl eq_refl)) as [X|X]; [congruence|]. exfalso. apply Nk. apply in_map_iff. now exists (k, v').
  - apply IH; [exact N'|exact Ef|]. intros x y H. destruct (Sub x y (or_intror H)) as [X|X]; [|exact X]. injection X as -> ->.
    exfalso. apply Nk. rewrite <- Ef. apply in_map_iff. now exists (x, y).
Qed.
Lemma insert_keeps a dim (new : B) loc : named a -> ~ has a dim -> exists l1 l2, a = l1 ++ l2 /\
  (insert a dim new loc = Ok (l1 ++ (dim, new) :: l2) \/ insert a dim new loc = Ok a).
Proof.
  intros N F. assert (forall d, has a d -> exists l1 v l2, a = l1 ++ (d, v) :: l2) as Sp.
  { intros d H. destruct (pair_of a d H) as (v & Hv). apply in_split in Hv as (l1 & l2 & ->). eauto. }
  assert (forall l, loc = l -> loc <> Anywhere -> away loc 0 a -> exists l1 l2, a = l1 ++ l2 /\
    (insert a dim new l = Ok (l1 ++ (dim, new) :: l2) \/ insert a dim new l = Ok a)) as Drop.
  { intros l <- NA A. exists a, []. split; [now rewrite app_nil_r|]. right. now apply insert_dropped. }
  destruct loc as [|d|d|z|].
  - exists a, []. split; [now rewrite app_nil_r|]. left. now apply insert_fresh.
  - destruct (in_dec str_eq_dec d (map fst a)) as [H|H]; [|now apply Drop].
    destruct (Sp d H) as (l1 & v & l2 & ->). exists (l1 ++ [(d, v)]), l2. rewrite <- app_assoc. split; [reflexivity|]. left. rewrite (proj1 (insert_swapped l1 l2 d dim v new N F)).
    now rewrite <- app_assoc.
  - destruct (in_dec str_eq_dec d (map fst a)) as [H|H]; [|now apply Drop].
    destruct (Sp d H) as (l1 & v & l2 & ->). exists l1, ((d, v) :: l2). split; [reflexivity|]. left. exact (proj2 (insert_swapped l1 l2 d dim v new N F)).
  - destruct (Z.ltb_spec z 0) as [H|H]; [apply Drop; [reflexivity|discriminate|left; lia]|].
    destruct (Z.leb_spec (Z.of_nat (length a)) z) as [H'|H']; [apply Drop; [reflexivity|discriminate|right; cbn; lia]|].
    exists (firstn (Z.to_nat z) a), (skipn (Z.to_nat z) a). split; [now rewrite firstn_skipn|]. left.
    assert (length (firstn (Z.to_nat z) a) = Z.to_nat z) as L by (rewrite firstn_length; lia).
    rewrite <- (insert_index (firstn (Z.to_nat z) a) (skipn (Z.to_nat z) a) dim new).
    + rewrite firstn_skipn, L, Z2Nat.id by lia. reflexivity.
    + now rewrite firstn_skipn.
    + now rewrite firstn_skipn.
    + intros E. apply (f_equal (@length _)) in E. rewrite skipn_length in E. cbn in E. lia.
  - now apply Drop.
Qed.
End Axes.
