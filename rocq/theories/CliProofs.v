(** * Lemmas for the configuration-file command *)
From Verif Require Import PyBase PyLemmas ContainerModel ContainerProofs ContainerProofs2 SymbolicModel SymbolicProofs
  ConfigModel ConfigSpec ConfigProofs ConfigProperties ParameterModel SourceSpec SourceProperties CliModel CliSpec.
From Coq Require Import Permutation Sorted.
Local Open Scope nat_scope.

(** ** Text *)
Lemma blanks_length n : length (blanks n) = n.
Proof. apply repeat_length. Qed.
Lemma ljust_length w x : length (ljust w x) = Nat.max w (length x).
Proof. unfold ljust. rewrite app_length, blanks_length. lia. Qed.
Lemma rjust_length w x : length (rjust w x) = Nat.max w (length x).
Proof. unfold rjust. rewrite app_length, blanks_length. lia. Qed.
Lemma center_margins w (x : str) : let pad := w - length x in let left := Nat.div2 pad + (if Nat.odd pad && Nat.odd w then 1 else 0) in
  left <= pad /\ left <= (pad - left) + 1 /\ pad - left <= left + 1.
Proof.
  cbv zeta. set (pad := w - length x). clearbody pad.
  pose proof (Nat.div2_odd pad) as D. destruct (Nat.odd pad), (Nat.odd w); cbn [andb Nat.b2n] in *; lia.
Qed.
Lemma center_length w x : length (center w x) = Nat.max w (length x).
Proof.
  pose proof (center_margins w x) as M. unfold center. cbv zeta in *. rewrite !app_length, !blanks_length. lia.
Qed.
Lemma center_centred w x : centred x (center w x).
Proof.
  pose proof (center_margins w x) as M. cbv zeta in M. unfold center, centred. cbv zeta.
  eexists _, _. split; [reflexivity|]. lia.
Qed.
Lemma maximum_spec l m : maximum l = Ok m -> (forall x, In x l -> x <= m) /\ In m l.
Proof.
  destruct l as [|x l]; [discriminate|]. cbn. intros E. injection E as <-.
  revert x. induction l as [|y l IH]; intros x; cbn [fold_left].
  - split; [intros z [<-|[]]; lia|left; reflexivity].
  - destruct (IH (Nat.max x y)) as (H & I). split.
    + intros z [<-|[<-|Z]]; [specialize (H _ (or_introl eq_refl)); lia|specialize (H _ (or_introl eq_refl)); lia|apply H; right; exact Z].
    + destruct I as [E|I]; [|right; right; exact I]. rewrite <- E.
      destruct (Nat.max_spec x y) as [(_ & ->)|(_ & ->)]; [right; left; reflexivity|left; reflexivity].
Qed.

(** ** The layout *)
Lemma layout_printed args lines labels : layout args = Ok lines ->
  (forall g, In g args -> snd g = [] \/ map fst (snd g) = labels) ->
  (forall g r, In g args -> In r (snd g) -> length (snd r) <= 76) -> printed 2 args lines.
Proof.
  intros E L V. unfold layout in E. apply bind_ok in E as ((lw & cw) & W & E). cbn [fst snd] in E. injection E as <-.
  unfold widths in W.
  destruct (filter _ args) as [|(h & top) rest] eqn:T; [discriminate|].
  apply bind_ok in W as (pw & P & W). apply bind_ok in W as (lw' & LW & W). apply bind_ok in W as (vw & VW & W).
  assert (lw' = lw) as -> by congruence. assert (CW : cw = Nat.max pw (lw + Nat.min 78 (vw + 2))) by congruence. clear W.
  assert (TI : In (h, top) args /\ top <> []).
  { assert (I : In (h, top) (filter (fun kv : str * list (str * str) => match snd kv with [] => false | _ => true end) args)) by (rewrite T; left; reflexivity).
    apply filter_In in I as (I & N). split; [exact I|]. intros ->. discriminate N. }
  apply maximum_spec in P as (P & _). apply maximum_spec in LW as (LW & _). apply maximum_spec in VW as (VW & _).
  exists cw, (map (block lw cw) args). split.
  { rewrite flat_map_concat_map. reflexivity. }
  assert (PW : forall g, In g args -> length (fst g) <= cw).
  { intros g I. assert (length (fst g) <= pw); [|lia]. apply P. apply in_map_iff. exists g. auto. }
  assert (LL : forall g r, In g args -> In r (snd g) -> length (fst r) <= lw).
  { intros g r I J. apply LW. destruct (L _ I) as [Z|Z]; [rewrite Z in J; destruct J|].
    destruct (L _ (proj1 TI)) as [Y|Y]; [cbn in Y; destruct TI; congruence|]. cbn [snd] in Y.
    assert (In (fst r) (map fst top)) as K by (rewrite Y, <- Z; apply in_map, J).
    apply in_map_iff in K as (r' & K1 & K2). apply in_map_iff. exists r'. split; [exact (f_equal (@length ascii) K1)|exact K2]. }
  assert (VV : forall g r, In g args -> In r (snd g) -> length (snd r) + 2 <= cw - lw).
  { intros g r I J. pose proof (V _ _ I J) as V1.
    assert (length (snd r) = 0 \/ length (snd r) <= vw) as [Z|Z]; [|lia|lia].
    destruct (Nat.eq_dec (length (snd r)) 0) as [Z|Z]; [auto|]. right. apply VW. apply filter_In. split; [|apply Nat.ltb_lt; lia].
    apply in_flat_map. exists g. split; [exact I|]. apply in_map_iff. exists r. auto. }
  clear TI T P LW VW V CW L. induction args as [|g args IH]; cbn [map]; constructor.
  - unfold block. exists (center cw (fst g)), (map (fun r => ljust lw (fst r) ++ rjust (cw - lw) (snd r)) (snd g)).
    split; [reflexivity|]. split; [apply center_centred|]. split.
    + rewrite center_length. specialize (PW g (or_introl eq_refl)). lia.
    + specialize (LL g). specialize (VV g). revert LL VV. generalize (snd g) as rs. clear. intros rs.
      induction rs as [|r rs IH]; cbn [map]; intros LL VV; constructor.
      * specialize (LL r (or_introl eq_refl) (or_introl eq_refl)). specialize (VV r (or_introl eq_refl) (or_introl eq_refl)). split.
        -- exists ((lw - length (fst r)) + (cw - lw - length (snd r))). split; [lia|].
           unfold ljust, rjust, blanks. rewrite repeat_app, <- !app_assoc. reflexivity.
        -- rewrite app_length, ljust_length, rjust_length. lia.
      * apply IH; intros r' I J; [apply LL|apply VV]; auto; right; exact J.
  - apply IH.
    + intros g' I. apply PW. right. exact I.
    + intros g' r I J. apply (LL g'); [right; exact I|exact J].
    + intros g' r I J. apply (VV g'); [right; exact I|exact J].
Qed.

(** ** Dictionaries from lists *)
Fixpoint firsts {V} (l : list (str * V)) : list (str * V) :=
  match l with [] => [] | x :: r => x :: filter (fun y => negb (str_eqb (fst x) (fst y))) (firsts r) end.
Lemma firsts_in {V} (l : list (str * V)) x : In x (firsts l) -> In x l.
Proof. induction l as [|y l IH]; cbn; [auto|]. intros [H|H]; [auto|]. apply filter_In in H as (H & _). auto. Qed.
Lemma firsts_fst {V} (l : list (str * V)) : map fst (firsts l) = first_occurrences (map fst l).
Proof.
  induction l as [|x l IH]; [reflexivity|]. cbn. rewrite <- IH. f_equal. generalize (firsts l) as m. clear.
  induction m as [|y m IH]; [reflexivity|]. cbn. destruct (str_eqb (fst x) (fst y)); cbn; [exact IH|]. rewrite IH. reflexivity.
Qed.
Lemma dict_put_same {V} (d : list (str * V)) k v : In (k, v) d -> NoDup (map fst d) -> dict_put str_eqb d k v = d.
Proof.
  induction d as [|(k' & v') d IH]; [intros []|]. cbn [dict_put map fst]. intros I N. inversion N as [|? ? N1 N2]; subst.
  destruct (str_eqb_spec k' k) as [->|NE].
  - destruct I as [I|I]; [congruence|]. exfalso. apply N1. apply in_map_iff. exists (k, v). auto.
  - f_equal. apply IH; [|exact N2]. destruct I as [I|I]; [congruence|exact I].
Qed.
Lemma dict_of_loop {V} (l : list (str * V)) : forall d, NoDup (map fst d) ->
  (forall k v v', In (k, v) (d ++ l) -> In (k, v') (d ++ l) -> v = v') ->
  fold_left (fun d kv => dict_put str_eqb d (fst kv) (snd kv)) l d = d ++ filter (fun y => negb (mem str_eqb (fst y) (map fst d))) (firsts l).
Proof.
  induction l as [|(k & v) l IH]; intros d N FN; cbn [fold_left firsts filter]; [rewrite app_nil_r; reflexivity|]. cbn [fst snd].
  destruct (mem str_eqb k (map fst d)) eqn:M; cbn [negb].
  - apply (mem_spec str_eqb str_decides) in M. pose proof M as M'. apply in_map_iff in M as ((k0 & v0) & E0 & I). cbn in E0. subst k0.
    assert (v0 = v) as -> by (apply (FN k); [apply in_or_app; left; exact I|apply in_or_app; right; left; reflexivity]).
    rewrite (dict_put_same d k v I N), IH; [|exact N|intros k0 a b A B; apply (FN k0); (apply in_app_or in A as [A|A]; apply in_app_or in B as [B|B]); apply in_or_app; cbn; auto].
    f_equal. rewrite filter_filter. apply filter_ext. intros (k0 & v0). cbn [fst].
    destruct (str_eqb_spec k k0) as [<-|NE]; cbn; [rewrite (proj2 (mem_spec str_eqb str_decides _ _) M'); reflexivity|reflexivity].
  - assert (NI : ~ In k (map fst d)) by (apply (mem_false str_eqb str_decides), M). rewrite (dict_put_new str_eqb str_decides) by exact NI.
    rewrite IH.
    + rewrite <- app_assoc. cbn [app]. do 2 f_equal. rewrite filter_filter. apply filter_ext. intros (k0 & v0). rewrite map_app. cbn [fst map].
      destruct (str_eqb_spec k k0) as [<-|NE]; cbn.
      * replace (mem str_eqb k (map fst d ++ [k])) with true; [reflexivity|]. symmetry. apply (mem_spec str_eqb str_decides), in_or_app. right. left. reflexivity.
      * f_equal. apply Bool.eq_iff_eq_true. rewrite !(mem_spec str_eqb str_decides), in_app_iff. cbn. split; [intros [H|[H|[]]]; [exact H|contradiction]|auto].
    + rewrite map_app. cbn. rewrite <- (rev_involutive (map fst d ++ [k])). apply NoDup_rev. rewrite rev_app_distr. cbn. constructor; [rewrite <- in_rev; exact NI|apply NoDup_rev, N].
    + intros k0 a b. rewrite <- app_assoc. cbn [app]. apply FN.
Qed.
Lemma dict_of_firsts {V} (l : list (str * V)) : (forall k v v', In (k, v) l -> In (k, v') l -> v = v') -> dict_of str_eqb l = firsts l.
Proof.
  intros H. unfold dict_of. rewrite dict_of_loop; [|constructor|exact H]. cbn. clear H. induction (firsts l) as [|x m IH]; [reflexivity|]. cbn. congruence.
Qed.
Lemma first_in l x : In x (first_occurrences l) <-> In x l.
Proof.
  induction l as [|y l IH]; [reflexivity|]. cbn. rewrite filter_In, IH. destruct (str_eqb_spec y x) as [->|NE]; cbn; [tauto|]. tauto.
Qed.
Lemma first_nodup l : NoDup (first_occurrences l).
Proof.
  induction l as [|y l IH]; cbn; constructor.
  - rewrite filter_In, str_eqb_refl. cbn. intros (_ & H). discriminate.
  - apply NoDup_filter, IH.
Qed.
Lemma filter_comm {X} (f g : X -> bool) l : filter f (filter g l) = filter g (filter f l).
Proof. rewrite !filter_filter. apply filter_ext. intros x. apply andb_comm. Qed.
Lemma first_filter p l : filter p (first_occurrences l) = first_occurrences (filter p l).
Proof.
  induction l as [|x l IH]; [reflexivity|]. cbn. destruct (p x) eqn:P; cbn; rewrite filter_comm, IH; [reflexivity|].
  clear IH. induction l as [|y l IH]; [reflexivity|]. cbn. destruct (p y) eqn:Q; [|exact IH]. cbn.
  destruct (str_eqb_spec x y) as [->|NE]; [congruence|]. cbn. f_equal. rewrite filter_comm, IH. reflexivity.
Qed.
Lemma first_map (g : str -> str) l : first_occurrences (map g (first_occurrences l)) = first_occurrences (map g l).
Proof.
  induction l as [|x l IH]; [reflexivity|]. cbn. f_equal. rewrite <- IH. clear IH. generalize (first_occurrences l) as m. intros m.
  rewrite !first_filter. f_equal. induction m as [|y m IH]; [reflexivity|]. cbn.
  destruct (str_eqb_spec x y) as [<-|NE]; cbn; [rewrite str_eqb_refl; exact IH|]. destruct (str_eqb (g x) (g y)); cbn; [exact IH|f_equal; exact IH].
Qed.
Lemma first_app l x : first_occurrences (l ++ [x]) = first_occurrences l ++ if mem str_eqb x l then [] else [x].
Proof.
  induction l as [|y l IH]; [reflexivity|]. cbn [app first_occurrences]. rewrite IH, filter_app. cbn [app]. f_equal. f_equal.
  cbn [mem existsb]. fold (mem str_eqb x l). destruct (mem str_eqb x l); cbn [filter]; [rewrite orb_true_r; reflexivity|].
  rewrite orb_false_r. destruct (str_eqb_spec y x) as [->|NE]; [rewrite str_eqb_refl; reflexivity|].
  destruct (str_eqb_spec x y) as [->|NE']; [congruence|reflexivity].
Qed.
Lemma first_distinct l : distinct_in_order l (first_occurrences l).
Proof.
  induction l as [|x l IH] using rev_ind; [constructor|]. rewrite first_app. destruct (mem str_eqb x l) eqn:M.
  - rewrite app_nil_r. constructor; [exact IH|apply (mem_spec str_eqb str_decides), M].
  - constructor; [exact IH|apply (mem_false str_eqb str_decides), M].
Qed.

(** ** Paths *)
Lemma common2_left a b : starts_with a (common2 a b).
Proof.
  revert b. induction a as [|x a IH]; intros [|y b]; cbn; try (eexists; reflexivity).
  destruct (str_eqb_spec x y) as [<-|NE]; [|eexists; reflexivity]. destruct (IH b) as (r & E). exists r. cbn. congruence.
Qed.
Lemma common2_right a b : starts_with b (common2 a b).
Proof.
  revert b. induction a as [|x a IH]; intros [|y b]; cbn; try (eexists; reflexivity).
  destruct (str_eqb_spec x y) as [<-|NE]; [|eexists; reflexivity]. destruct (IH b) as (r & E). exists r. cbn. congruence.
Qed.
Lemma common2_greatest c : forall a b, starts_with a c -> starts_with b c -> starts_with (common2 a b) c.
Proof.
  induction c as [|x c IH]; intros a b (r & ->) (t & ->); [eexists; reflexivity|]. cbn. rewrite str_eqb_refl.
  destruct (IH (c ++ r) (c ++ t)) as (u & E); [eexists; reflexivity|eexists; reflexivity|]. exists u. cbn. rewrite E. reflexivity.
Qed.
Lemma starts_trans {A} (a b c : list A) : starts_with a b -> starts_with b c -> starts_with a c.
Proof. intros (r & ->) (t & ->). exists (t ++ r). symmetry. apply app_assoc. Qed.
Lemma commonpath_spec l c : commonpath l = Ok c ->
  (forall p, In p l -> starts_with p c) /\ forall c', (forall p, In p l -> starts_with p c') -> starts_with c c'.
Proof.
  destruct l as [|p l]; [discriminate|]. cbn. intros E. injection E as <-. revert p. induction l as [|q l IH]; intros p; cbn [fold_left].
  - split; [intros q [<-|[]]; exists []; rewrite app_nil_r; reflexivity|]. intros c' H. apply H. left. reflexivity.
  - destruct (IH (common2 p q)) as (H & G). split.
    + intros z [<-|[<-|Z]].
      * eapply starts_trans; [apply (common2_left p q)|]. apply H. left. reflexivity.
      * eapply starts_trans; [apply (common2_right p q)|]. apply H. left. reflexivity.
      * apply H. right. exact Z.
    + intros c' K. apply G. intros z [<-|Z]; [apply common2_greatest; apply K; cbn; auto|apply K; cbn; auto].
Qed.
Lemma joined_cons x l : l <> [] -> joined (x :: l) = x ++ "/"%char :: joined l.
Proof. destruct l; [congruence|reflexivity]. Qed.
Lemma joined_slash x l : proper_path (x :: l) -> before "/"%char (joined (x :: l)) = x /\ after "/"%char (joined (x :: l)) = match l with [] => None | _ => Some (joined l) end.
Proof.
  intros P. inversion P as [|? ? (_ & _ & NS) P']; subst. destruct l as [|y l].
  - cbn [joined]. split; [apply before_none, NS|apply after_none, NS].
  - rewrite joined_cons by discriminate. destruct (after_app "/"%char x (joined (y :: l)) NS) as (A & B). rewrite A, B. auto.
Qed.
Lemma joined_nonempty l : proper_path l -> l <> [] -> joined l <> [].
Proof.
  intros P N E. destruct l as [|x l]; [congruence|]. destruct (joined_slash x l P) as (B & _). rewrite E in B.
  inversion P as [|? ? (NE & _) _]; subst. apply NE. reflexivity.
Qed.
Lemma joined_inj l : forall l', proper_path l -> proper_path l' -> joined l = joined l' -> l = l'.
Proof.
  induction l as [|x l IH]; intros [|y l'] P Q E; [reflexivity| | |].
  - exfalso. apply (joined_nonempty (y :: l')); [exact Q|discriminate|]. symmetry. exact E.
  - exfalso. apply (joined_nonempty (x :: l)); [exact P|discriminate|exact E].
  - destruct (joined_slash x l P) as (B1 & A1). destruct (joined_slash y l' Q) as (B2 & A2). rewrite E in B1, A1.
    rewrite B2 in B1. subst y. rewrite A1 in A2. f_equal.
    destruct l as [|x1 l], l' as [|y1 l']; try discriminate; [reflexivity|].
    apply IH; [inversion P; assumption|inversion Q; assumption|]. congruence.
Qed.
Lemma joined_not_dot l : proper_path l -> l <> [] -> joined l <> s ".".
Proof.
  intros P N E. destruct l as [|x l]; [congruence|]. destruct (joined_slash x l P) as (B & A). rewrite E in B.
  inversion P as [|? ? (_ & ND & _) _]; subst. apply ND. reflexivity.
Qed.
Lemma proper_app a b : proper_path (a ++ b) -> proper_path b.
Proof. intros H. apply Forall_app in H. apply H. Qed.
Lemma relpath_rest c r : relpath c (c ++ r) = match r with [] => s "." | _ => joined r end.
Proof. unfold relpath. rewrite skipn_app, skipn_all, Nat.sub_diag. cbn. destruct r; reflexivity. Qed.
Lemma relpath_inj c p q : proper_path p -> proper_path q -> starts_with p c -> starts_with q c -> relpath c p = relpath c q -> p = q.
Proof.
  intros P Q (r & ->) (t & ->). rewrite !relpath_rest. apply proper_app in P, Q. intros E. f_equal.
  destruct r as [|x r], t as [|y t]; [reflexivity| | |].
  - exfalso. apply (joined_not_dot (y :: t)); [exact Q|discriminate|]. symmetry. exact E.
  - exfalso. apply (joined_not_dot (x :: r)); [exact P|discriminate|exact E].
  - apply joined_inj; assumption.
Qed.
Lemma path_str_inj p q : proper_path p -> proper_path q -> path_str p = path_str q -> p = q.
Proof. intros P Q E. injection E as E. apply joined_inj; assumption. Qed.

(** ** Normalised paths *)
Section Files.
Variable fullpath : str -> result path.
Variables (files : list str) (fulls : list path).
Hypothesis FULL : Forall2 (fun a p => fullpath a = Ok p) files fulls.
Hypothesis NONE : files <> [].
Hypothesis PROPER : Forall proper_path fulls.
Definition full_of (a : str) : path := match fullpath a with Ok p => p | Raise _ => [] end.
Lemma fulls_map_gen l m : Forall2 (fun a p => fullpath a = Ok p) l m -> m = map full_of l.
Proof using. induction 1 as [|a p l m E F2 IH]; [reflexivity|]. cbn. unfold full_of at 1. rewrite E, <- IH. reflexivity. Qed.
Lemma full_mapM_gen l m : Forall2 (fun a p => fullpath a = Ok p) l m -> mapM (fun a => p <- fullpath a ;; Ok (a, p)) l = Ok (map (fun a => (a, full_of a)) l).
Proof using.
  induction 1 as [|a p l m E F2 IH]; [reflexivity|]. cbn. unfold full_of at 1. rewrite E. cbn. rewrite IH. reflexivity.
Qed.
Lemma fulls_map : fulls = map full_of files.
Proof using FULL. exact (fulls_map_gen _ _ FULL). Qed.
Lemma full_mapM : mapM (fun a => p <- fullpath a ;; Ok (a, p)) files = Ok (map (fun a => (a, full_of a)) files).
Proof using FULL. exact (full_mapM_gen _ _ FULL). Qed.
Lemma firsts_keys {V} (f : str -> V) l : firsts (map (fun a => (a, f a)) l) = map (fun a => (a, f a)) (first_occurrences l).
Proof.
  induction l as [|x l IH]; [reflexivity|]. cbn. rewrite IH. f_equal. generalize (first_occurrences l) as m. clear.
  induction m as [|y m IH]; [reflexivity|]. cbn. destruct (str_eqb x y); cbn; [exact IH|]. rewrite IH. reflexivity.
Qed.
Lemma normalized : exists common ps, normalize_paths fullpath files = Ok (map (fun p => (p, relpath common p)) ps) /\
  map path_str ps = first_occurrences (map path_str fulls) /\ (forall p, In p ps <-> In p fulls) /\ ps <> [] /\
  (forall p, In p fulls -> starts_with p common) /\ forall c, (forall p, In p fulls -> starts_with p c) -> starts_with common c.
Proof using FULL NONE PROPER.
  unfold normalize_paths. rewrite full_mapM. cbn [bind].
  rewrite (dict_of_firsts (map (fun a => (a, full_of a)) files)).
  2:{ intros k v v' A B. apply in_map_iff in A as (a & A & _). apply in_map_iff in B as (b & B & _). congruence. }
  rewrite firsts_keys, !map_map. cbn [snd].
  assert (SAME : forall p, In p (map full_of (first_occurrences files)) <-> In p fulls).
  { intros p. rewrite fulls_map, !in_map_iff. split; intros (a & E & I); exists a; (split; [exact E|]); apply first_in; exact I. }
  assert (NE : map full_of (first_occurrences files) <> []).
  { clear -NONE. destruct files as [|x l]; [congruence|]. cbn. discriminate. }
  destruct (commonpath (map full_of (first_occurrences files))) as [common|e] eqn:C.
  2:{ exfalso. destruct (map full_of (first_occurrences files)); [congruence|discriminate C]. }
  cbn [bind]. apply commonpath_spec in C as (C1 & C2).
  set (l := map (fun x => (path_str (full_of x), full_of x)) (first_occurrences files)).
  assert (LP : forall k v, In (k, v) l -> k = path_str v /\ In v fulls).
  { intros k v I. apply in_map_iff in I as (a & E & I). injection E as <- <-. split; [reflexivity|]. apply SAME, in_map, I. }
  assert (D : dict_of str_eqb l = firsts l).
  { apply dict_of_firsts. intros k v v' A B. apply LP in A as (A1 & A2). apply LP in B as (B1 & B2). rewrite Forall_forall in PROPER.
    apply path_str_inj; [apply PROPER, A2|apply PROPER, B2|congruence]. }
  rewrite D. exists common, (map snd (firsts l)). split; [rewrite map_map; reflexivity|].
  assert (FK : map path_str (map snd (firsts l)) = map fst (firsts l)).
  { rewrite map_map. apply map_ext_in. intros (k & v) I. cbn. apply firsts_in, LP in I as (E & _). congruence. }
  split.
  { rewrite FK, firsts_fst. unfold l. rewrite map_map. cbn [fst]. rewrite fulls_map, map_map. exact (first_map (fun a => path_str (full_of a)) files). }
  split; [|split; [|split]].
  - intros p. split.
    + intros I. apply in_map_iff in I as ((k & v) & E & I). cbn in E. subst v. apply firsts_in, LP in I. apply I.
    + intros I. pose proof I as J. apply SAME in I. apply in_map_iff in I as (a & E & I).
      assert (K : In (path_str p) (map fst (firsts l))).
      { rewrite firsts_fst. apply first_in. unfold l. rewrite map_map. cbn [fst]. apply in_map_iff. exists a. split; [congruence|exact I]. }
      apply in_map_iff in K as ((k & v) & E2 & K). cbn in E2. subst k. apply in_map_iff. exists (path_str p, v). split; [|exact K].
      cbn. apply firsts_in, LP in K as (K1 & K2). rewrite Forall_forall in PROPER. symmetry. apply path_str_inj; [apply PROPER, J|apply PROPER, K2|exact K1].
  - unfold l. destruct (first_occurrences files) as [|x r]; [exfalso; apply NE; reflexivity|]. cbn. discriminate.
  - intros p I. apply C1, SAME, I.
  - intros c H. apply C2. intros p I. apply H, SAME, I.
Qed.
End Files.

(** ** Groups *)
Lemma heading_split k d : proper_name k -> before " "%char (skipn 2 (heading k d)) = k.
Proof. intros (_ & N). unfold heading. cbn [s]. change (before " "%char (k ++ " "%char :: (s "(default: " ++ d ++ s ")  ")) = k). apply after_app, N. Qed.
Lemma heading_inj k d k' d' : proper_name k -> proper_name k' -> heading k d = heading k' d' -> k = k'.
Proof. intros P Q E. rewrite <- (heading_split k d P), <- (heading_split k' d' Q), E. reflexivity. Qed.
Lemma heading_blank k d : In " "%char (heading k d).
Proof. left. reflexivity. Qed.
Lemma maps_displays key targets : Forall (fun t => NoDup (map fst (settings (snd t)))) targets ->
  Forall2 (fun t r => fst r = fst t /\ displays (settings (snd t)) (shown_value (snd t)) key (snd r)) targets (map_parameter key targets).
Proof.
  induction 1 as [|t targets N F2 IH]; cbn; constructor; [|exact IH]. cbn. split; [reflexivity|].
  destruct (lookup str_eqb (settings (snd t)) key) as [[|c v]|e] eqn:L.
  - apply displays_default. intros text I. apply (lookup_in str_eqb str_decides _ _ _ N) in I. congruence.
  - apply (displays_value _ _ _ (c :: v)); [|discriminate]. apply (lookup_in str_eqb str_decides _ _ _ N), L.
  - apply displays_default. intros text I. apply (lookup_in str_eqb str_decides _ _ _ N) in I. congruence.
Qed.
Lemma displays_one st f key a b : NoDup (map fst st) -> displays st f key a -> displays st f key b -> a = b.
Proof.
  intros N A B. inversion A as [x I NE|D]; subst; inversion B as [y J NE'|D']; subst; try reflexivity.
  - exfalso. apply NE, D', I.
  - exfalso. apply NE', D, J.
Qed.
Lemma existsb_differ (l : list (str * str)) v0 k0 r : l = (k0, v0) :: r ->
  existsb (fun v => negb (str_eqb (snd v) v0)) l = true <-> exists a b, In a l /\ In b l /\ snd a <> snd b.
Proof.
  intros ->. rewrite existsb_exists. split.
  - intros (x & I & E). exists x, (k0, v0). split; [exact I|]. split; [left; reflexivity|]. cbn. intros Q. rewrite Q, str_eqb_refl in E. discriminate.
  - intros (a & b & I & J & N). destruct (str_eqb_spec (snd a) v0) as [Ea|Na]; [|exists a; split; [exact I|]; destruct (str_eqb_spec (snd a) v0); [congruence|reflexivity]].
    exists b. split; [exact J|]. destruct (str_eqb_spec (snd b) v0) as [Eb|Nb]; [congruence|reflexivity].
Qed.
Section Build.
Variable package : source.
Variable diff : bool.
Variable targets : list (str * config).
Hypothesis SOME : targets <> [].
Definition selected (key : str) : bool :=
  negb diff || match map_parameter key targets with [] => false | (_, v0) :: _ => existsb (fun v => negb (str_eqb (snd v) v0)) (map_parameter key targets) end.
Definition group_of (key : str) (g : str * list (str * str)) : Prop :=
  exists d, shown_default package key = Ok d /\ g = (heading key d, map_parameter key targets).
Lemma build_ok keys : Forall proper_name keys -> NoDup keys -> forall built args, build package diff targets keys built = Ok args ->
  (forall k d, In k keys -> ~ In (heading k d) (map fst built)) ->
  exists groups, args = built ++ groups /\ Forall2 group_of (filter selected keys) groups.
Proof using SOME.
  induction keys as [|key keys IH]; intros P N built args E NB; cbn [build] in E.
  { injection E as <-. exists []. rewrite app_nil_r. split; [reflexivity|constructor]. }
  apply bind_ok in E as (d & D & E). inversion P as [|? ? P1 P2]; subst. inversion N as [|? ? N1 N2]; subst.
  cbn [filter]. destruct (selected key) eqn:SEL; unfold selected in SEL; destruct (map_parameter key targets) as [|(k0 & v0) r] eqn:M; try discriminate E;
    change (negb diff || existsb (fun v => negb (str_eqb (snd v) v0)) ((k0, v0) :: r)) with
      (negb diff || existsb (fun v : str * str => negb (str_eqb (snd v) v0)) ((k0, v0) :: r)) in SEL; rewrite SEL in E.
  - rewrite (dict_put_new str_eqb str_decides) in E by (apply NB; left; reflexivity).
    destruct (IH P2 N2 _ _ E) as (groups & A & G).
    { intros k d' I J. rewrite map_app in J. apply in_app_or in J as [J|[J|[]]].
      - apply (NB k d'); [right; exact I|exact J].
      - cbn in J. apply heading_inj in J; [|exact P1|rewrite Forall_forall in P2; apply P2, I]. subst k. contradiction. }
    exists ((heading key d, (k0, v0) :: r) :: groups). split; [rewrite A, <- app_assoc; reflexivity|]. constructor; [|exact G].
    exists d. rewrite M. auto.
  - destruct (IH P2 N2 _ _ E) as (groups & A & G); [|exists groups; auto].
    intros k d' I. apply NB. right. exact I.
Qed.
Lemma build_total keys : (forall k, In k keys -> exists d, shown_default package k = Ok d) -> forall built, exists args, build package diff targets keys built = Ok args.
Proof using SOME.
  induction keys as [|key keys IH]; intros D built; cbn [build]; [eauto|].
  destruct (D key (or_introl eq_refl)) as (d & ->). cbn [bind]. unfold map_parameter at 1. destruct targets as [|t ts]; [congruence|]. cbn [map].
  apply IH. intros k I. apply D. right. exact I.
Qed.
End Build.
