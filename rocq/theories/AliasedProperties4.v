(** C87 continued: merging two aliased mappings, equality, fromkeys, squeeze, alias, and the views of a
    mapping over time. *)
From Verif Require Import PyBase PyLemmas AliasedModel AliasedModel2 AliasedSpec AliasedProofs AliasedNames AliasedProperties
  AliasedProperties3.

(** an aliased mapping with groups that share no names, each with at least one name *)
Definition well_grouped {V} (d : entries V) : Prop := disjoint_groups (map fst d) /\ forall g v, In (g, v) d -> g <> [].

Section Grouped.
Context {V : Type}.
Implicit Types d : entries V.

Lemma grouped_one d g v h w a : NoDup (flat_keys d) -> In (g, v) d -> In (h, w) d -> In a g -> In a h -> (g, v) = (h, w).
Proof.
  intros N Ig Ih Ag Ah. apply In_nth_error in Ig as (n & En). apply In_nth_error in Ih as (m & Em).
  pose proof (disjoint_unique d N _ _ _ _ _ _ _ En Em Ag Ah). subst m. congruence.
Qed.
Lemma getgroup_in d g v : well_grouped d -> In (g, v) d -> getgroup d g = Ok v.
Proof.
  intros (N & F) I. assert (X : exists a, In a g) by (destruct g as [|a g]; [exfalso; exact (F _ _ I eq_refl)|exists a; left; reflexivity]).
  destruct X as (a & A). assert (G : forall d', incl d' d -> In (g, v) d' -> getgroup d' g = Ok v).
  { induction d' as [|(h, w) d' IH]; intros In' I'; [destruct I'|]. cbn [getgroup]. destruct (group_eqb h g) eqn:E.
    - apply group_eqb_spec in E. assert (Ah : In a h) by (apply E, A).
      pose proof (grouped_one d g v h w a N I (In' _ (or_introl eq_refl)) A Ah) as Q. injection Q as _ <-. reflexivity.
    - destruct I' as [I'|I']; [|apply IH; [intros z Z; apply In'; right; exact Z|exact I']].
      injection I' as -> ->. exfalso. assert (T : group_eqb g g = true) by (apply group_eqb_spec; intros k; split; auto). congruence. }
  apply (G d); [intros z Z; exact Z|exact I].
Qed.
Lemma aliased_items_ok d : well_grouped d -> aliased_items d = Ok d.
Proof.
  intros W. unfold aliased_items. assert (G : forall d', incl d' d -> mapM (fun gv => v <- getgroup d (fst gv) ;; Ok (fst gv, v)) d' = Ok d').
  { induction d' as [|(g, v) d' IH]; intros I; [reflexivity|]. cbn [mapM fst]. rewrite (getgroup_in d g v W (I _ (or_introl eq_refl))).
    cbn [bind]. rewrite IH; [reflexivity|]. intros z Z. apply I. right. exact Z. }
  apply G. intros z Z. exact Z.
Qed.
End Grouped.

Section Merging.
Variable same : group -> group -> bool.
Hypothesis S : sound_keys same.

Lemma nodup_in_group {V} (d : entries V) g v : NoDup (flat_keys d) -> In (g, v) d -> NoDup g.
Proof using. intros N I. apply (nodup_concat_in (map fst d)); [exact N|]. apply (in_map fst) in I. exact I. Qed.

(** folding a second, disjoint list of entries onto any entries *)
Lemma fold_second {V} (e d : entries V) : NoDup (flat_keys d) -> NoDup (flat_keys e) ->
  let r := fold_left (fun d gv => dict_set same d (fst gv) (snd gv)) e d in
  (forall a, getitem r a = match getitem e a with Ok v => Ok v | Raise _ => getitem d a end) /\
  (forall g v, In (g, v) r -> NoDup g).
Proof using S.
  intros ND NE r. subst r.
  assert (G : forall e1 e2, e = e1 ++ e2 -> let r := fold_left (fun d gv => dict_set same d (fst gv) (snd gv)) e1 d in
    (forall a, getitem r a = match getitem e1 a with Ok v => Ok v | Raise _ => getitem d a end) /\
    (forall g v, In (g, v) r -> NoDup g) /\
    (** a group of the result with a name outside the second list belongs to the first *)
    (exists r1 r2, r = r1 ++ r2 /\ map fst r1 = map fst d /\ incl r2 e1 /\
       (forall g v, In (g, v) r1 -> In (g, v) d \/ exists h, In (h, v) e1 /\ same_names h g))).
  { induction e1 as [|(g, v) e1 IH] using rev_ind; intros e2 E; cbn zeta.
    - split; [intros a; reflexivity|]. split; [intros g v I; exact (nodup_in_group d g v ND I)|].
      exists d, []. split; [symmetry; apply app_nil_r|]. split; [reflexivity|]. split; [intros z Z; exact Z|]. intros g v I. left. exact I.
    - rewrite <- app_assoc in E. destruct (IH _ E) as (IG & IN & r1 & r2 & ER & EF & I2 & I1). cbn zeta in *.
      rewrite fold_left_app. cbn [fold_left fst snd]. set (r := fold_left _ e1 d) in *.
      assert (Ige : In (g, v) e) by (rewrite E; apply in_app_iff; right; left; reflexivity).
      assert (NE1 : NoDup (flat_keys (e1 ++ [(g, v)]))).
      { clear - NE E. rewrite E in NE. rewrite app_assoc_reverse in E || idtac. unfold flat_keys in *. change ((g, v) :: e2) with ([(g, v)] ++ e2) in NE.
        cbn [app] in NE. replace (e1 ++ (g, v) :: e2) with ((e1 ++ [(g, v)]) ++ e2) in NE by (rewrite <- app_assoc; reflexivity).
        rewrite map_app, concat_app in NE. revert NE. generalize (concat (map fst (e1 ++ [(g, v)]))). intros l NE.
        induction l as [|y l IHl]; [constructor|]. cbn [app] in NE. inversion NE; subst. constructor; [|auto]. intros H. apply H1. apply in_app_iff. left. exact H. }
      (* g is disjoint from e1 *)
      assert (DJ : forall a, In a g -> ~ In a (flat_keys e1)).
      { intros a A B. unfold flat_keys in NE1, B. rewrite map_app, concat_app in NE1. cbn [map fst concat] in NE1.
        rewrite app_nil_r in NE1. apply in_split in B as (l1 & l2 & EB). rewrite EB, <- app_assoc in NE1. cbn [app] in NE1.
        apply NoDup_remove_2 in NE1. apply NE1. rewrite !in_app_iff. right. right. exact A. }
      assert (GE : forall a, getitem (e1 ++ [(g, v)]) a = if in_group a g then Ok v else getitem e1 a).
      { intros a. destruct (in_group a g) eqn:B.
        - apply in_group_spec in B. apply (getitem_disjoint _ NE1) with (g := g); [apply in_app_iff; right; left; reflexivity|exact B].
        - apply in_group_false in B. destruct (getitem e1 a) as [w|x] eqn:W.
          + apply getitem_in in W as (h & I & A). apply (getitem_disjoint _ NE1) with (g := h); [apply in_app_iff; left; exact I|exact A].
          + apply getitem_error in W as (-> & W). apply getitem_error. split; [reflexivity|]. unfold flat_keys. rewrite map_app, concat_app.
            cbn [map fst concat]. rewrite app_nil_r, in_app_iff. intros [H|H]; [exact (W H)|exact (B H)]. }
      assert (GD : forall a, getitem (dict_set same r g v) a = if in_group a g then Ok v else getitem r a).
      { clear IH. intros a.
        (* either the first [same] entry is in [r1], or a new entry is appended *)
        assert (C : dict_set same r g v = r ++ [(g, v)] \/
                    exists p h w q, r = p ++ (h, w) :: q /\ same h g = true /\ dict_set same r g v = p ++ (h, v) :: q).
        { clear. induction r as [|(h, w) r IH]; [left; reflexivity|]. cbn [dict_set]. destruct (same h g) eqn:B.
          - right. exists [], h, w, r. split; [reflexivity|]. split; [exact B|reflexivity].
          - destruct IH as [->|(p & h' & w' & q & -> & B' & ->)]; [left; reflexivity|].
            right. exists ((h, w) :: p), h', w', q. split; [reflexivity|]. split; [exact B'|reflexivity]. }
        destruct C as [->|(p & h & w & q & EP & B & ->)].
        - destruct (in_group a g) eqn:A.
          + apply in_group_spec in A. apply getitem_last. exists (length r), g. split; [rewrite nth_error_app2, Nat.sub_diag; [reflexivity|lia]|].
            split; [exact A|]. intros m h w L Em. exfalso.
            assert (X : m < length (r ++ [(g, v)])) by (apply nth_error_Some; congruence). rewrite app_length in X. cbn [length] in X. lia.
          + apply in_group_false in A. unfold getitem, resolve.
            assert (RF : forall r i, resolve_from i (r ++ [(g, v)]) a = resolve_from i r a).
            { clear - A. induction r as [|(h, w) r IH]; intros i; cbn [app resolve_from].
              - rewrite (proj2 (in_group_false a g) A). reflexivity.
              - rewrite IH. reflexivity. }
            rewrite RF. destruct (resolve_from 0 r a) as [j|] eqn:Rj; [|reflexivity].
            apply resolve_from_some in Rj as (n & h & w & -> & En & _). cbn [Nat.add]. rewrite En, nth_error_app1; [rewrite En; reflexivity|].
            apply nth_error_Some. congruence.
        - apply S in B. destruct (in_group a g) eqn:A.
          + apply in_group_spec in A. apply getitem_last. exists (length p), h. split; [rewrite nth_error_app2, Nat.sub_diag; [reflexivity|lia]|].
            split; [apply B, A|]. intros m h' w' L Em Ah'.
            (* a later entry with the name: in [r1] it contradicts the disjointness of d, in [r2] that of e *)
            assert (Em' : nth_error r m = Some (h', w')).
            { rewrite EP. rewrite nth_error_app2 in Em |- * by lia. destruct (m - length p) as [|j] eqn:J; [lia|]. exact Em. }
            rewrite ER in Em'. destruct (Nat.lt_ge_cases m (length r1)) as [Lm|Lm].
            * rewrite nth_error_app1 in Em' by exact Lm.
              assert (Ep : nth_error r1 (length p) = Some (h, w)).
              { assert (Q : nth_error r (length p) = Some (h, w)) by (rewrite EP, nth_error_app2, Nat.sub_diag; [reflexivity|lia]).
                rewrite ER, nth_error_app1 in Q; [exact Q|lia]. }
              assert (N1 : NoDup (flat_keys r1)) by (unfold flat_keys; rewrite EF; exact ND).
              pose proof (disjoint_unique r1 N1 _ _ _ _ _ _ _ Ep Em' (proj2 (B a) A) Ah'). lia.
            * rewrite nth_error_app2 in Em' by exact Lm. apply nth_error_In in Em'. apply I2 in Em'.
              apply (DJ a A). unfold flat_keys. apply in_concat. exists h'. split; [apply in_map_iff; exists (h', w'); split; [reflexivity|exact Em']|exact Ah'].
          + apply in_group_false in A. assert (Ah : ~ In a h) by (intros H; apply A, B, H). rewrite EP. unfold getitem, resolve.
            assert (RF : forall p i, resolve_from i (p ++ (h, v) :: q) a = resolve_from i (p ++ (h, w) :: q) a) by
              (intros p0; induction p0 as [|(h0, w0) p0 IHp]; intros i; cbn [app resolve_from]; [reflexivity|rewrite IHp; reflexivity]).
            rewrite RF. destruct (resolve_from 0 (p ++ (h, w) :: q) a) as [j|] eqn:Rj; [|reflexivity].
            apply resolve_from_some in Rj as (n & h' & w' & -> & En & Ah' & _). cbn [Nat.add]. rewrite En.
            destruct (Nat.lt_trichotomy n (length p)) as [L|[L|L]].
            * rewrite nth_error_app1 in En |- * by exact L. rewrite En. reflexivity.
            * subst n. rewrite nth_error_app2, Nat.sub_diag in En by lia. cbn [nth_error] in En. injection En as -> ->. contradiction.
            * rewrite nth_error_app2 in En |- * by lia. destruct (n - length p) as [|j] eqn:J; [lia|]. cbn [nth_error] in En |- *. rewrite En. reflexivity. }
      split; [|split].
      + intros a. rewrite GD, GE, IG. destruct (in_group a g); [reflexivity|]. reflexivity.
      + intros h w I. destruct (dict_set_in same S _ _ _ _ _ I) as [I'|_]; [exact (IN _ _ I')|].
        (* the group is one of the old ones or g itself *)
        assert (C : In h (map fst r) \/ h = g).
        { clear - I. induction r as [|(h0, w0) r IH]; cbn [dict_set] in I.
          - destruct I as [I|[]]. injection I as <- <-. right. reflexivity.
          - destruct (same h0 g); destruct I as [I|I].
            + injection I as <- <-. left. left. reflexivity.
            + left. right. apply (in_map fst) in I. exact I.
            + injection I as <- <-. left. left. reflexivity.
            + destruct (IH I) as [H|H]; [left; right; exact H|right; exact H]. }
        destruct C as [C| ->]; [|exact (nodup_in_group e g v NE Ige)].
        apply in_map_iff in C as ((h0 & w0) & <- & C). exact (IN _ _ C).
      + assert (C : exists r1' r2', dict_set same r g v = r1' ++ r2' /\ map fst r1' = map fst r1 /\
           (r1' = r1 /\ (forall x, In x r2' -> In x r2 \/ x = (g, v) \/ exists w h, x = (h, v) /\ In (h, w) r2 /\ same h g = true) \/
            r2' = r2 /\ exists p h w q, r1 = p ++ (h, w) :: q /\ same h g = true /\ r1' = p ++ (h, v) :: q)).
        { rewrite ER. clear. induction r1 as [|(h, w) r1 IH].
          - exists [], (dict_set same r2 g v). split; [reflexivity|]. split; [reflexivity|]. left. split; [reflexivity|].
            induction r2 as [|(h, w) r2 IH]; cbn [dict_set].
            + intros x [<-|[]]. right. left. reflexivity.
            + destruct (same h g) eqn:B.
              * intros x [<-|I]; [right; right; exists w, h; split; [reflexivity|]; split; [left; reflexivity|exact B]|left; right; exact I].
              * intros x [<-|I]; [left; left; reflexivity|]. destruct (IH x I) as [H|[H|(w' & h' & H & H1 & H2)]];
                  [left; right; exact H|right; left; exact H|right; right; exists w', h'; split; [exact H|]; split; [right; exact H1|exact H2]].
          - cbn [app dict_set]. destruct (same h g) eqn:B.
            + exists ((h, v) :: r1), r2. split; [reflexivity|]. split; [reflexivity|]. right. split; [reflexivity|].
              exists [], h, w, r1. split; [reflexivity|]. split; [exact B|reflexivity].
            + destruct IH as (r1' & r2' & E & F & [(-> & H)|(-> & p & h' & w' & q & -> & B' & ->)]).
              * exists ((h, w) :: r1), r2'. split; [cbn [app]; rewrite E; reflexivity|]. split; [reflexivity|]. left. split; [reflexivity|exact H].
              * exists ((h, w) :: p ++ (h', v) :: q), r2. split; [cbn [app]; rewrite E; reflexivity|]. split; [cbn [map]; f_equal; exact F|].
                right. split; [reflexivity|]. exists ((h, w) :: p), h', w', q. split; [reflexivity|]. split; [exact B'|reflexivity]. }
        destruct C as (r1' & r2' & EC & FC & C). exists r1', r2'. split; [exact EC|]. split; [rewrite FC; exact EF|].
        destruct C as [(-> & C)|(-> & p & h & w & q & -> & B & ->)].
        * split.
          -- intros x I. destruct (C x I) as [H|[->|(w & h & -> & H & B)]].
             ++ apply in_app_iff. left. apply I2, H.
             ++ apply in_app_iff. right. left. reflexivity.
             ++ (* impossible: g is disjoint from e1 and not empty, or both are empty *)
                apply S in B. destruct g as [|a g].
                ** destruct h as [|b h]; [|exfalso; apply (B b); left; reflexivity]. apply in_app_iff. right. left. reflexivity.
                ** exfalso. apply (DJ a (or_introl eq_refl)). apply I2 in H. unfold flat_keys. apply in_concat. exists h.
                   split; [apply in_map_iff; exists (h, w); split; [reflexivity|exact H]|]. apply B. left. reflexivity.
          -- intros g0 v0 I. destruct (I1 _ _ I) as [H|(h & H & N)]; [left; exact H|]. right. exists h. split; [apply in_app_iff; left; exact H|exact N].
        * split; [intros x I; apply in_app_iff; left; apply I2, I|].
          intros g0 v0 I. apply in_app_iff in I as [I|[I|I]].
          -- destruct (I1 g0 v0) as [H|(h' & H & N)]; [apply in_app_iff; left; exact I|left; exact H|]. right. exists h'. split; [apply in_app_iff; left; exact H|exact N].
          -- injection I as <- <-. right. exists g. split; [apply in_app_iff; right; left; reflexivity|]. apply S in B. intros k. split; apply B.
          -- destruct (I1 g0 v0) as [H|(h' & H & N)]; [apply in_app_iff; right; right; exact I|left; exact H|]. right. exists h'. split; [apply in_app_iff; left; exact H|exact N]. }
  destruct (G e [] (eq_sym (app_nil_r e))) as (A & B & _). split; [exact A|exact B].
Qed.

(** entries of a dictionary are never the same key twice *)
Definition apart {V} (d : entries V) : Prop := ForallOrdPairs (fun x y => same (fst x) (fst y) = false) d.
Lemma dict_set_apart {V} (d : entries V) g v : apart d -> apart (dict_set same d g v).
Proof using.
  intros A. induction A as [|(h, w) d F A IH]; cbn [dict_set]; [constructor; [constructor|constructor]|].
  destruct (same h g) eqn:B; [constructor; [exact F|exact A]|]. constructor; [|exact IH].
  apply Forall_forall. intros (h', w') I. cbn [fst].
  assert (C : In h' (map fst d) \/ h' = g).
  { clear - I. induction d as [|(h0, w0) r IH]; cbn [dict_set] in I.
    - destruct I as [I|[]]. injection I as <- <-. right. reflexivity.
    - destruct (same h0 g); destruct I as [I|I].
      + injection I as <- <-. left. left. reflexivity.
      + left. right. apply (in_map fst) in I. exact I.
      + injection I as <- <-. left. left. reflexivity.
      + destruct (IH I) as [H|H]; [left; right; exact H|right; exact H]. }
  destruct C as [C| ->]; [|exact B]. apply in_map_iff in C as (x & <- & C). rewrite Forall_forall in F. exact (F x C).
Qed.
Lemma zip_apart {V} (kvs : list (group * V)) : forall d, apart d -> apart (fold_left (fun d gv => dict_set same d (fst gv) (snd gv)) kvs d).
Proof using. induction kvs as [|(g, v) kvs IH]; intros d A; [exact A|]. cbn [fold_left]. apply IH, dict_set_apart, A. Qed.
Lemma zip_again {V} (d : entries V) : apart d -> zip_dict same d = d.
Proof using.
  unfold zip_dict. assert (G : forall d0, apart (d0 ++ d) -> fold_left (fun d gv => dict_set same d (fst gv) (snd gv)) d d0 = d0 ++ d).
  { induction d as [|(g, v) d IH]; intros d0 A; [symmetry; apply app_nil_r|]. cbn [fold_left fst snd].
    assert (N : dict_set same d0 g v = d0 ++ [(g, v)]).
    { clear IH. induction d0 as [|(h, w) d0 IH0]; [reflexivity|]. cbn [app] in A. inversion A as [|? ? F A']; subst. cbn [dict_set].
      rewrite Forall_forall in F. assert (B : same h g = false) by (apply (F (g, v)); apply in_app_iff; right; left; reflexivity).
      rewrite B, (IH0 A'). reflexivity. }
    rewrite N, IH; [rewrite <- app_assoc; reflexivity|]. rewrite <- app_assoc. exact A. }
  apply (G []).
Qed.
Lemma build_groups_again {V} (d : entries V) : (forall g v, In (g, v) d -> NoDup g) ->
  build_from_aliases same (map (fun gv => (KTup (fst gv), snd gv)) d) = zip_dict same d.
Proof using.
  intros N. unfold build_from_aliases, zip_dict. generalize (@nil (group * V)). induction d as [|(g, v) d IH]; intros d0; [reflexivity|].
  cbn [map fold_left fst snd build_step ugroup]. rewrite dedup_id; [|apply (N g v); left; reflexivity]. apply IH. intros h w I. apply (N h w). right. exact I.
Qed.
Definition no_aliases_inside (v : avalue) : Prop := forall i, v = AInterior i -> ~ In (s "aliases") (map fst i).
Lemma has_aliases_false v : no_aliases_inside v -> has_aliases v = false.
Proof using.
  intros H. destruct v as [| |i|]; try reflexivity. cbn [has_aliases]. apply in_group_false. exact (H i eq_refl).
Qed.
Lemma implicit_none (m : list (ukey * avalue)) : (forall k v, In (k, v) m -> no_aliases_inside v) ->
  build_mapping same m NoAliases = Ok (match m with [] => [] | _ => build_from_aliases same m end).
Proof using.
  intros H. unfold build_mapping. destruct m as [|e m]; [reflexivity|]. unfold build_implicit.
  destruct (existsb has_aliases (map snd (e :: m))) eqn:E; [|reflexivity]. exfalso.
  apply existsb_exists in E as (v & I & B). apply in_map_iff in I as ((k & w) & <- & I). cbn [snd] in B.
  rewrite (has_aliases_false w (H k w I)) in B. discriminate.
Qed.

(** ** Merging two aliased mappings: every name of the second gives the value there, every other name
    the value in the first, whatever groups the names are in. *)
Theorem C87_merge_aliased (d e : entries avalue) : well_grouped d -> well_grouped e ->
  (forall g v, In (g, v) (d ++ e) -> no_aliases_inside v) ->
  exists r, or_aliased same d e = Ok r /\
    forall a, getitem r a = match getitem e a with Ok v => Ok v | Raise _ => getitem d a end.
Proof using S.
  intros Wd We NA. unfold or_aliased. rewrite (aliased_items_ok d Wd), (aliased_items_ok e We). cbn [bind].
  set (z := zip_dict same (d ++ e)).
  assert (Z : z = fold_left (fun d gv => dict_set same d (fst gv) (snd gv)) e d).
  { unfold z, zip_dict. rewrite fold_left_app. f_equal. apply (zip_disjoint same S); [apply Wd|]. intros (g, v) I. exact (proj2 Wd g v I). }
  destruct (fold_second e d (proj1 Wd) (proj1 We)) as (GI & GN). cbn zeta in GI, GN. rewrite <- Z in GI, GN.
  assert (NV : forall k v, In (k, v) (as_items z) -> no_aliases_inside v).
  { intros k v I. unfold as_items in I. apply in_map_iff in I as ((g & w) & E & I). cbn [fst snd] in E. injection E as _ <-.
    apply (zip_in same S) in I as (h & I & _). exact (NA h w I). }
  rewrite (implicit_none _ NV). eexists. split; [reflexivity|]. intros a. rewrite <- GI. f_equal.
  assert (E : build_from_aliases same (as_items z) = z).
  { unfold as_items. rewrite (build_groups_again z GN). apply zip_again. apply (zip_apart (d ++ e) []). constructor. }
  destruct (as_items z) as [|x l] eqn:EZ; [|exact E]. exact E.
Qed.

(** ** [fromkeys] *)
(** the keys as the user means them: a name, or a tuple of names *)
Definition key_names (k : ukey) (a : str) : Prop := match k with KOne x => a = x | KTup xs => In a xs end.
Lemma ugroup_names k a : In a (ugroup k) <-> key_names k a.
Proof using.
  destruct k as [x|xs]; cbn [ugroup key_names]; [split; [intros [<-|[]]; reflexivity|intros ->; left; reflexivity]|apply dedup_in].
Qed.
Lemma build_values (m : list (ukey * avalue)) v a w : (forall k u, In (k, u) m -> u = v) -> getitem (build_from_aliases same m) a = Ok w -> w = v.
Proof using S.
  intros H E. apply getitem_in in E as (g & I & _). revert g w I. unfold build_from_aliases.
  assert (G : forall d, (forall g u, In (g, u) d -> u = v) -> forall g w, In (g, w) (fold_left (build_step same) m d) -> w = v).
  { induction m as [|(k, u) m IH]; intros d D g w I; [exact (D g w I)|]. cbn [fold_left] in I.
    refine (IH _ _ _ g w I); [intros k' u' I'; apply (H k' u'); right; exact I'|].
    intros g' u' I'. assert (U : u = v) by (apply (H k u); left; reflexivity). unfold build_step in I'. cbn [fst snd] in I'.
    assert (DS : forall h, In (g', u') (dict_set same d h u) -> u' = v).
    { intros h J. destruct (dict_set_in same S _ _ _ _ _ J) as [J'|(-> & _)]; [exact (D g' u' J')|exact U]. }
    destruct k as [x|xs]; [|exact (DS _ I')]. destruct (first_with d x); [|exact (DS _ I')].
    clear - I' D U. induction d as [|(h, w0) d IHd]; [destruct I'|]. cbn [first_set] in I'. destruct (in_group x h).
    - destruct I' as [J|J]; [injection J as _ <-; exact U|]. apply (D g' u'). right. exact J.
    - destruct I' as [J|J]; [injection J as <- <-; apply (D h w0); left; reflexivity|].
      apply IHd; [|exact J]. intros g0 u0 J0. apply (D g0 u0). right. exact J0. }
  intros g w I. refine (G [] _ g w I). intros g' u [].
Qed.
(** Every name among the keys gives the value; no other name is known. *)
Theorem C87_fromkeys (ks : list ukey) v : no_aliases_inside v ->
  exists d, fromkeys same (KeysOf ks) v = Ok d /\
    forall a, (getitem d a = Ok v <-> exists k, In k ks /\ key_names k a) /\
              (getitem d a = Raise KeyError <-> ~ exists k, In k ks /\ key_names k a).
Proof using S.
  intros NA. cbn [fromkeys]. set (m := map (fun k => (k, v)) ks). rewrite (implicit_none m).
  2:{ intros k w I. apply in_map_iff in I as (k' & E & _). injection E as _ <-. exact NA. }
  eexists. split; [reflexivity|]. intros a.
  assert (Q : match m with [] => [] | _ => build_from_aliases same m end = build_from_aliases same m) by (destruct m; reflexivity).
  rewrite Q.
  assert (K : In a (flat_keys (build_from_aliases same m)) <-> exists k, In k ks /\ key_names k a).
  { rewrite (build_names same S). split.
    - intros (kv & I & A). apply in_map_iff in I as (k & <- & I). exists k. split; [exact I|apply ugroup_names, A].
    - intros (k & I & A). exists (k, v). split; [apply in_map_iff; exists k; split; [reflexivity|exact I]|apply ugroup_names, A]. }
  assert (W : forall w, getitem (build_from_aliases same m) a = Ok w -> w = v).
  { intros w. apply build_values. intros k u I. apply in_map_iff in I as (k' & E & _). injection E as _ <-. reflexivity. }
  rewrite <- K. split.
  - split.
    + intros H. apply getitem_in in H as (g & I & A). unfold flat_keys. apply in_concat. exists g. split; [apply (in_map fst) in I; exact I|exact A].
    + intros H. destruct (getitem (build_from_aliases same m) a) as [w|e] eqn:E; [rewrite (W w eq_refl); reflexivity|].
      apply getitem_error in E as (_ & E). contradiction.
  - rewrite getitem_error. split; [intros (_ & H); exact H|intros H; split; [reflexivity|exact H]].
Qed.
(** From a mapping of mappings: the keys with the aliases listed inside. *)
Theorem C87_fromkeys_mapping (m : list (str * list (str * avalue))) key v : no_aliases_inside v ->
  exists d, fromkeys same (KeysOfMapping (interior_map m) key) v = Ok d /\
    forall a, (getitem d a = Ok v <-> exists k i, In (k, i) m /\ listed key k i a) /\
              (getitem d a = Raise KeyError <-> ~ exists k i, In (k, i) m /\ listed key k i a).
Proof using S.
  intros NA. cbn [fromkeys].
  assert (M : mapM (key_with_entry key) (interior_map m) = Ok (map (fun kv : str * list (str * avalue) => dedup ([fst kv] ++ names_in (assoc (snd kv) key))) m)).
  { induction m as [|(k, i) m IH]; [reflexivity|]. cbn [interior_map map mapM]. fold (interior_map m).
    unfold key_with_entry at 1. cbn [snd fst bind ugroup]. rewrite IH. reflexivity. }
  rewrite M. cbn [bind]. clear M. rewrite map_map. set (kvs := map _ m). set (z := zip_dict same kvs).
  assert (ZV : forall g w, In (g, w) z -> w = v /\ exists h, In (h, w) kvs /\ same_names h g).
  { intros g w I. apply (zip_in same S) in I as (h & I & N). split; [|exists h; split; assumption].
    apply in_map_iff in I as (x & E & _). injection E as _ <-. reflexivity. }
  rewrite (implicit_none (as_items z)).
  2:{ intros k w I. apply in_map_iff in I as ((g & u) & E & I). injection E as _ <-. cbn [snd]. rewrite (proj1 (ZV g u I)). exact NA. }
  eexists. split; [reflexivity|]. intros a.
  assert (Q : match as_items z with [] => [] | _ => build_from_aliases same (as_items z) end = build_from_aliases same (as_items z)) by (destruct (as_items z); reflexivity).
  rewrite Q.
  assert (K : In a (flat_keys (build_from_aliases same (as_items z))) <-> exists k i, In (k, i) m /\ listed key k i a).
  { rewrite (build_names same S). transitivity (In a (flat_keys z)).
    - unfold flat_keys. rewrite in_concat. split.
      + intros (kv & I & A). unfold as_items in I. apply in_map_iff in I as ((g & u) & <- & I). cbn [fst ugroup] in A. apply (dedup_in a g) in A.
        exists g. split; [apply (in_map fst) in I; exact I|exact A].
      + intros (g & I & A). apply in_map_iff in I as ((g' & u) & <- & I). exists (KTup g', u).
        split; [apply in_map_iff; exists (g', u); split; [reflexivity|exact I]|apply dedup_in, A].
    - unfold z. rewrite (zip_names same S). split.
      + intros (g & w & I & A). apply in_map_iff in I as ((k & i) & E & I). cbn [fst snd] in E. injection E as <- <-. exists k, i.
        split; [exact I|apply key_with_entry_spec, A].
      + intros (k & i & I & A). exists (dedup ([k] ++ names_in (assoc i key))), v. split; [apply in_map_iff; exists (k, i); split; [reflexivity|exact I]|apply key_with_entry_spec, A]. }
  assert (W : forall w, getitem (build_from_aliases same (as_items z)) a = Ok w -> w = v).
  { intros w. apply build_values. intros k u I. apply in_map_iff in I as ((g & u') & E & I). injection E as _ <-. exact (proj1 (ZV g u' I)). }
  rewrite <- K. split.
  - split.
    + intros H. apply getitem_in in H as (g & I & A). unfold flat_keys. apply in_concat. exists g. split; [apply (in_map fst) in I; exact I|exact A].
    + intros H. destruct (getitem (build_from_aliases same (as_items z)) a) as [w|e] eqn:E; [rewrite (W w eq_refl); reflexivity|].
      apply getitem_error in E as (_ & E). contradiction.
  - rewrite getitem_error. split; [intros (_ & H); exact H|intros H; split; [reflexivity|exact H]].
Qed.
End Merging.
Print Assumptions C87_merge_aliased.
Print Assumptions C87_fromkeys.
Print Assumptions C87_fromkeys_mapping.
