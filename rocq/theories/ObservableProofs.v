(** * Proofs about observing contexts: arguments are parsed one key at a time *)
From Verif Require Import PyBase PyLemmas ContainerModel ContainerSpec ContainerProofs ContainerProofs2 Nd IndexModel ArrayModel AxesModel AxisModel PhysicalModel AtomicModel ObservableModel.

Lemma put_get {V} (m : list (str * V)) k v k' : lookup str_eqb (dict_put str_eqb m k v) k' = if str_eqb k k' then Ok v else lookup str_eqb m k'.
Proof. apply (dict_put_get str_eqb str_decides). Qed.
Lemma put_same {V} (m : list (str * V)) k v : lookup str_eqb (dict_put str_eqb m k v) k = Ok v.
Proof. rewrite put_get, str_eqb_refl. reflexivity. Qed.
Lemma put_other {V} (m : list (str * V)) k v k' : k <> k' -> lookup str_eqb (dict_put str_eqb m k v) k' = lookup str_eqb m k'.
Proof. intros N. rewrite put_get. destruct (str_eqb_spec k k'); [contradiction|reflexivity]. Qed.
Lemma subseq_filter (p : str -> bool) : forall a l, subseq a l -> (forall x, In x a -> p x = true) -> (forall x, In x l -> p x = true -> In x a) -> NoDup l -> filter p l = a.
Proof.
  intros a l S. induction S as [|x a l S IH|x a l S IH]; intros H1 H2 N; [reflexivity| |]; inversion N as [|? ? Nx Nl]; subst; cbn [filter].
  - rewrite (H1 x) by (left; reflexivity). f_equal. apply IH; [intros y Hy; apply H1; right; exact Hy| |exact Nl].
    intros y Hy Py. destruct (H2 y) as [E|Hin]; [right; exact Hy|exact Py|subst; contradiction|exact Hin].
  - destruct (p x) eqn:E.
    + exfalso. apply Nx. assert (In x a) as K by (apply H2; [left; reflexivity|exact E]).
      clear - S K. induction S; [exact K| |]; [destruct K as [->|K]; [left; reflexivity|right; auto]|right; auto].
    + apply IH; [exact H1| |exact Nl]. intros y Hy. apply H2. right. exact Hy.
Qed.

Section P.
Set Default Proof Using "Type".
Context {U : Type}.
Variables (ueq : U -> U -> bool) (uone : U) (factor : U -> U -> option Qc) (consistent : U -> U -> bool) (is_length : U -> bool).
Notation context := (context (U := U)).
Notation uval := (uval (U := U)).
Notation parsed := (parsed (U := U)).
Notation state := (state (U := U)).
Notation parse := (parse_user_arg ueq uone factor consistent).
Notation step := (implement_step ueq uone factor consistent).
Notation loop := (implement_loop ueq uone factor consistent).
Notation narrow := (narrow_axis ueq factor consistent).
Notation impl := (implement ueq uone factor consistent).

(** two states agree on the keys of [p]; the second one has no other keys *)
Definition sim (p : str -> bool) (st st' : state) : Prop :=
  (forall k, p k = true -> lookup str_eqb (fst st) k = lookup str_eqb (fst st') k /\ lookup str_eqb (snd st) k = lookup str_eqb (snd st') k) /\
  (forall k, p k = false -> lookup str_eqb (fst st') k = Raise KeyError /\ lookup str_eqb (snd st') k = Raise KeyError).
Lemma sim_put1 p st st' k v : p k = true -> sim p st st' -> sim p (dict_put str_eqb (fst st) k v, snd st) (dict_put str_eqb (fst st') k v, snd st').
Proof.
  intros Pk (H1 & H2). split; intros h Ph; cbn [fst snd]; rewrite ?put_get.
  - destruct (str_eqb_spec k h); [split; [reflexivity|apply H1, Ph]|apply H1, Ph].
  - destruct (str_eqb_spec k h); [congruence|apply H2, Ph].
Qed.
Lemma sim_put2 p st st' k v : p k = true -> sim p st st' -> sim p (fst st, dict_put str_eqb (snd st) k v) (fst st', dict_put str_eqb (snd st') k v).
Proof.
  intros Pk (H1 & H2). split; intros h Ph; cbn [fst snd]; rewrite ?put_get.
  - destruct (str_eqb_spec k h); [split; [apply H1, Ph|reflexivity]|apply H1, Ph].
  - destruct (str_eqb_spec k h); [congruence|apply H2, Ph].
Qed.
Lemma sim_skip1 p st st' k v : p k = false -> sim p st st' -> sim p (dict_put str_eqb (fst st) k v, snd st) st'.
Proof.
  intros Pk (H1 & H2). split; [|exact H2]. intros h Ph; cbn [fst snd]; rewrite ?put_get. destruct (str_eqb_spec k h); [congruence|apply H1, Ph].
Qed.
Lemma sim_skip2 p st st' k v : p k = false -> sim p st st' -> sim p (fst st, dict_put str_eqb (snd st) k v) st'.
Proof.
  intros Pk (H1 & H2). split; [|exact H2]. intros h Ph; cbn [fst snd]; rewrite ?put_get. destruct (str_eqb_spec k h); [congruence|apply H1, Ph].
Qed.
(** what one turn does to the two dictionaries *)
Inductive effect := EIndex (i : parsed) | EAssume (q : parsed) | EBoth (i q : parsed).
Definition turn (c : context) (k : str) (v : uval) : result effect :=
  match parse c k v with
  | Raise (OtherError "AxisValueError") => i <- parse c k (VSlice full_slice) ;; p <- parse c [] v ;; Ok (EBoth i p)
  | Raise e => Raise e
  | Ok p => match lookup str_eqb (caxes c) k with Ok _ => Ok (EIndex p) | Raise _ => Ok (EAssume p) end
  end.
Definition perform (st : state) (k : str) (e : effect) : state :=
  match e with
  | EIndex i => (dict_put str_eqb (fst st) k i, snd st)
  | EAssume q => (fst st, dict_put str_eqb (snd st) k q)
  | EBoth i q => (dict_put str_eqb (fst st) k i, dict_put str_eqb (snd st) k q)
  end.
Lemma step_turn c st k v : step c st k v = (e <- turn c k v ;; Ok (perform st k e)).
Proof.
  destruct st as [i q]. unfold implement_step, turn. destruct (parse c k v) as [p|e].
  - destruct (lookup str_eqb (caxes c) k); reflexivity.
  - destruct e as [| | | | | | | | | | | |nm|]; try reflexivity. destruct (String.string_dec nm "AxisValueError") as [->|N].
    + destruct (parse c k (VSlice full_slice)); [|reflexivity]. cbn [bind]. destruct (parse c [] v); reflexivity.
    + assert (E : forall (X : Type) (a b : X), (match nm with "AxisValueError" => a | _ => b end)%string = b).
      { intros X a b. repeat (destruct nm as [|[[] [] [] [] [] [] [] []] nm]; try reflexivity). exfalso. apply N. reflexivity. }
      rewrite !E. reflexivity.
Qed.
Lemma sim_perform p st st' k e : p k = true -> sim p st st' -> sim p (perform st k e) (perform st' k e).
Proof.
  intros P S. destruct e; cbn [perform]; [apply sim_put1|apply sim_put2|]; try assumption.
  apply (sim_put2 p (dict_put str_eqb (fst st) k i, snd st) (dict_put str_eqb (fst st') k i, snd st') k q P). apply sim_put1; assumption.
Qed.
Lemma sim_perform_skip p st st' k e : p k = false -> sim p st st' -> sim p (perform st k e) st'.
Proof.
  intros P S. destruct e; cbn [perform]; [apply sim_skip1|apply sim_skip2|]; try assumption.
  apply (sim_skip2 p (dict_put str_eqb (fst st) k i, snd st) st' k q P). apply sim_skip1; assumption.
Qed.
Lemma loop_sim p c : forall user st st' r, sim p st st' -> loop c st user = Ok r ->
  exists r', loop c st' (filter (fun kv => p (fst kv)) user) = Ok r' /\ sim p r r'.
Proof.
  induction user as [|[k v] user IH]; intros st st' r S H; cbn [implement_loop filter fst] in *.
  - injection H as <-. eauto.
  - rewrite step_turn in H. destruct (turn c k v) as [e|] eqn:E; cbn [bind] in H; [|discriminate]. destruct (p k) eqn:Pk.
    + destruct (IH _ (perform st' k e) r (sim_perform p st st' k e Pk S) H) as (r' & L & S'). exists r'. split; [|exact S'].
      cbn [implement_loop]. rewrite step_turn, E. exact L.
    + exact (IH _ st' r (sim_perform_skip p st st' k e Pk S) H).
Qed.
Lemma narrow_sim p c key st st' r : sim p st st' -> narrow c st key = Ok r -> exists r', narrow c st' key = Ok r' /\ sim p r r'.
Proof.
  intros S H. unfold narrow_axis in *. destruct (p key) eqn:P.
  - rewrite <- (proj2 (proj1 S key P)). destruct (lookup str_eqb (snd st) key) as [[q|[l u|sl]]|] eqn:L; [discriminate| |discriminate|injection H as <-; eauto].
    destruct (lookup str_eqb (caxes c) key) as [x|]; [|discriminate]. cbn [bind] in *. destruct x; try discriminate.
    destruct with_unit as [w|]; [|discriminate]. cbn [bind] in *. destruct restrict as [idx|]; [|discriminate]. cbn [bind] in *. injection H as <-. eexists. split; [reflexivity|]. apply sim_put1; assumption.
  - rewrite (proj2 (proj2 S key P)). exists st'. split; [reflexivity|].
    destruct (lookup str_eqb (snd st) key) as [[q|[l u|sl]]|] eqn:L; [discriminate| |discriminate|injection H as <-; exact S].
    destruct (lookup str_eqb (caxes c) key) as [x|]; [|discriminate]. cbn [bind] in *. destruct x; try discriminate.
    destruct with_unit as [w|]; [|discriminate]. cbn [bind] in *. destruct restrict as [idx|]; [|discriminate]. cbn [bind] in *. injection H as <-. apply sim_skip1; assumption.
Qed.
Lemma narrow_shell_sim p c st st' r : p (s "radius") = p (s "shell") -> sim p st st' -> narrow_shell ueq factor consistent c st = Ok r ->
  exists r', narrow_shell ueq factor consistent c st' = Ok r' /\ sim p r r'.
Proof.
  intros Q S H. unfold narrow_shell in *. destruct (p (s "radius")) eqn:P.
  - rewrite <- (proj2 (proj1 S _ P)). destruct (lookup str_eqb (snd st) (s "radius")) as [[q|[l u|sl]]|] eqn:L; [discriminate| |discriminate|injection H as <-; eauto].
    destruct with_unit as [w|]; [|discriminate]. cbn [bind] in *. destruct restrict as [idx|]; [|discriminate]. cbn [bind] in *. injection H as <-. eexists. split; [reflexivity|]. apply sim_put1; [exact (eq_sym Q)|exact S].
  - rewrite (proj2 (proj2 S _ P)). exists st'. split; [reflexivity|].
    destruct (lookup str_eqb (snd st) (s "radius")) as [[q|[l u|sl]]|] eqn:L; [discriminate| |discriminate|injection H as <-; exact S].
    destruct with_unit as [w|]; [|discriminate]. cbn [bind] in *. destruct restrict as [idx|]; [|discriminate]. cbn [bind] in *. injection H as <-. apply sim_skip1; [exact (eq_sym Q)|exact S].
Qed.
(** arguments that agree on the keys of [p] *)
Definition agree_on (p : str -> bool) (a b : arguments (U := U)) : Prop :=
  forall k, p k = true -> lookup str_eqb (aindices a) k = lookup str_eqb (aindices b) k /\ lookup str_eqb (aassumed a) k = lookup str_eqb (aassumed b) k.
Lemma implement_sim p c user a : p (s "radius") = p (s "shell") -> impl c user = Ok a ->
  exists a', impl c (filter (fun kv => p (fst kv)) user) = Ok a' /\ agree_on p a a'.
Proof.
  intros Q H. unfold implement in *. destruct (loop c ([], []) user) as [st|] eqn:L; [|discriminate]. cbn [bind] in H.
  assert (S0 : sim p ([], []) ([], [])) by (split; intros; split; reflexivity).
  destruct (loop_sim p c user _ _ _ S0 L) as (st' & -> & S1). cbn [bind].
  destruct (narrow c st (s "time")) as [st2|] eqn:N1; [|discriminate]. cbn [bind] in H. destruct (narrow_sim p c _ _ _ _ S1 N1) as (st2' & -> & S2). cbn [bind].
  destruct (narrow c st2 (s "energy")) as [st3|] eqn:N2; [|discriminate]. cbn [bind] in H. destruct (narrow_sim p c _ _ _ _ S2 N2) as (st3' & -> & S3). cbn [bind].
  destruct (narrow c st3 (s "mu")) as [st4|] eqn:N3; [|discriminate]. cbn [bind] in H. destruct (narrow_sim p c _ _ _ _ S3 N3) as (st4' & -> & S4). cbn [bind].
  destruct (narrow_shell ueq factor consistent c st4) as [st5|] eqn:N4; [|discriminate]. cbn [bind] in H. destruct (narrow_shell_sim p c _ _ _ Q S4 N4) as (st5' & -> & S5). cbn [bind].
  injection H as <-. eexists. split; [reflexivity|]. intros k Pk. exact (proj1 S5 k Pk).
Qed.
(** ** constraints *)
Definition keys_of (ds : list str) (k : str) : bool := mem str_eqb (if str_eqb k (s "radius") then s "shell" else k) ds.
Lemma filter_filter {A} (p q : A -> bool) l : filter p (filter q l) = filter (fun x => p x && q x) l.
Proof. induction l as [|a l IH]; [reflexivity|]. cbn [filter]. destruct (q a) eqn:Q; cbn [filter]; rewrite IH; destruct (p a); reflexivity. Qed.
Lemma put_new {V} (m : list (str * V)) k v : ~ In k (map fst m) -> dict_put str_eqb m k v = m ++ [(k, v)].
Proof. apply (dict_put_new str_eqb str_decides). Qed.
Lemma lookup_filter {V} (p : str -> bool) (m : list (str * V)) k : lookup str_eqb (filter (fun kv => p (fst kv)) m) k = if p k then lookup str_eqb m k else Raise KeyError.
Proof.
  induction m as [|[h w] m IH]; cbn [filter fst lookup]; [destruct (p k); reflexivity|]. destruct (str_eqb_spec h k) as [->|N].
  - destruct (p k) eqn:P; [cbn [lookup]; rewrite str_eqb_refl; reflexivity|rewrite IH; reflexivity].
  - destruct (p h); [cbn [lookup]; destruct (str_eqb_spec h k); [contradiction|exact IH]|exact IH].
Qed.
Lemma in_filter_keys {V} (p : str * V -> bool) m k : In k (map fst (filter p m)) -> In k (map fst m).
Proof. rewrite !in_map_iff. intros (x & E & Hx). apply filter_In in Hx as (Hx & _). eauto. Qed.
Lemma shellless_keys (m : list (str * uval)) : ~ In (s "shell") (map fst (shellless m)).
Proof. rewrite in_map_iff. intros ([k v] & E & Hx). apply filter_In in Hx as (_ & Hx). cbn [fst] in *. subst k. rewrite str_eqb_refl in Hx. discriminate. Qed.
Lemma constraints_sub ds m user : ~ In (s "radius") (map fst m) -> constraints is_length m = Ok user ->
  constraints is_length (filter (fun kv => mem str_eqb (fst kv) ds) m) = Ok (filter (fun kv => keys_of ds (fst kv)) user).
Proof.
  intros NR H. unfold constraints in *. rewrite (lookup_filter (fun k => mem str_eqb k ds)).
  assert (F : forall l : list (str * uval), ~ In (s "radius") (map fst l) -> filter (fun kv => mem str_eqb (fst kv) ds) (shellless l) = filter (fun kv => keys_of ds (fst kv)) (shellless l)).
  { intros l Hl. apply filter_ext_in. intros [k v] Hk. unfold keys_of. cbn [fst]. destruct (str_eqb_spec k (s "radius")) as [->|_]; [|reflexivity].
    exfalso. apply Hl. apply in_filter_keys with (p := fun kv => negb (str_eqb (fst kv) (s "shell"))). apply in_map_iff. exists (s "radius", v). auto. }
  assert (G : shellless (filter (fun kv => mem str_eqb (fst kv) ds) m) = filter (fun kv => keys_of ds (fst kv)) (shellless m)).
  { rewrite <- F by exact NR. unfold shellless. rewrite !filter_filter. apply filter_ext. intros kv. apply andb_comm. }
  destruct (lookup str_eqb m (s "shell")) as [v|e] eqn:L.
  - destruct (shell_or_radius is_length v) as [[k w]|] eqn:E; [|discriminate]. cbn [bind fst snd] in *. injection H as <-.
    assert (K : (k = s "shell" \/ k = s "radius") /\ ~ In k (map fst (shellless m))).
    { assert (KK : k = s "shell" \/ k = s "radius").
      { unfold shell_or_radius in E. destruct v as [l|sl|l u|t|l].
        - destruct (points_of l); cbn [bind] in E; [injection E as <- _; auto|discriminate].
        - injection E as <- _; auto.
        - destruct (is_length u); [injection E as <- _; auto|]. destruct (points_of (map py_int l)); cbn [bind] in E; [injection E as <- _; auto|discriminate].
        - discriminate.
        - destruct (points_of l); cbn [bind] in E; [injection E as <- _; auto|discriminate]. }
      split; [exact KK|]. destruct KK as [->| ->]; [apply shellless_keys|]. intros Hin. apply NR. eapply in_filter_keys, Hin. }
    destruct K as (K & NK). destruct (mem str_eqb (s "shell") ds) eqn:M.
    + rewrite E. cbn [bind fst snd]. f_equal. rewrite G. rewrite !put_new; [|exact NK|intros Hin; apply NK; eapply in_filter_keys, Hin].
      rewrite filter_app. cbn [filter fst]. replace (keys_of ds k) with true; [reflexivity|]. symmetry. unfold keys_of. destruct K as [->| ->]; [destruct (str_eqb_spec (s "shell") (s "radius")); [discriminate|exact M]|rewrite str_eqb_refl; exact M].
    + f_equal. rewrite G, put_new by exact NK. rewrite filter_app. cbn [filter fst]. replace (keys_of ds k) with false; [rewrite app_nil_r; reflexivity|].
      symmetry. unfold keys_of. destruct K as [->| ->]; [destruct (str_eqb_spec (s "shell") (s "radius")); [discriminate|exact M]|rewrite str_eqb_refl; exact M].
  - injection H as <-. replace (if mem str_eqb (s "shell") ds then Raise e else Raise KeyError) with (Raise (A := uval) (if mem str_eqb (s "shell") ds then e else KeyError)) by (destruct (mem str_eqb (s "shell") ds); reflexivity).
    f_equal. exact G.
Qed.
Lemma keys_radius ds : keys_of ds (s "radius") = keys_of ds (s "shell").
Proof. unfold keys_of. rewrite str_eqb_refl. destruct (str_eqb_spec (s "shell") (s "radius")); [discriminate|reflexivity]. Qed.
Lemma arguments_sub c ds m user a : ~ In (s "radius") (map fst m) -> constraints is_length m = Ok user -> impl c user = Ok a ->
  exists user' a', constraints is_length (filter (fun kv => mem str_eqb (fst kv) ds) m) = Ok user' /\ impl c user' = Ok a' /\ agree_on (keys_of ds) a a'.
Proof.
  intros NR H1 H2. destruct (implement_sim (keys_of ds) c user a (keys_radius ds) H2) as (a' & E & A). eexists. exists a'. split; [apply constraints_sub; eassumption|]. split; assumption.
Qed.
End P.
