(** Histories of an object registry (C50). *)
From Verif Require Import PyBase PyLemmas ContainerModel ContainerSpec ContainerProofs ContainerProofs2.
Set Default Proof Using "Type".

Section Registry.
Context {O : Type}.
(** one registration: object, its own name, requested name *)
Record reg_op := { op_obj : O; op_name : str; op_user : option str }.
Definition run_op (r : registry O) (o : reg_op) : registry O :=
  snd (register r (op_obj o) (op_name o) (op_user o) false).
Definition run_ops (r : registry O) (os : list reg_op) : registry O := fold_left run_op os r.
(** the key under which the next registration is stored *)
Definition op_key (r : registry O) (o : reg_op) : str :=
  fst (register r (op_obj o) (op_name o) (op_user o) false).

(** [x] ends in an underscore and a number *)
Definition looks_numbered (x : str) : Prop := exists p n, x = numbered_key p n.

Lemma split_last (c : ascii) a : forall b a' b', ~ In c a -> ~ In c a' -> a ++ c :: b = a' ++ c :: b' -> a = a' /\ b = b'.
Proof.
  induction a as [|x a IH]; intros b [|y a'] b' N N' E; cbn [app] in E.
  - injection E as ->. auto.
  - injection E as -> _. exfalso. apply N'. left. reflexivity.
  - injection E as <- _. exfalso. apply N. left. reflexivity.
  - injection E as <- E. destruct (IH b a' b') as [-> ->]; auto; intros H; [apply N | apply N']; right; exact H.
Qed.
Lemma digits_no_underscore n : ~ In "_"%char (rev (str_of_N n)).
Proof.
  rewrite <- in_rev. intros H. pose proof (str_of_N_digits n) as F. rewrite Forall_forall in F. apply F in H. discriminate.
Qed.
Lemma numbered_key_inj p n p' n' : numbered_key p n = numbered_key p' n' -> p = p' /\ n = n'.
Proof.
  unfold numbered_key. intros E. apply (f_equal (@rev ascii)) in E. rewrite !rev_app_distr in E. cbn [rev] in E. rewrite <- !app_assoc in E. cbn [app] in E.
  apply split_last in E as [E1 E2]; try apply digits_no_underscore.
  split; [rewrite <- (rev_involutive p), <- (rev_involutive p'); f_equal; exact E2|].
  rewrite <- (N_of_str_of_N n), <- (N_of_str_of_N n'). f_equal. rewrite <- (rev_involutive (str_of_N n)), E1. apply rev_involutive.
Qed.

Definition plain_op (o : reg_op) : Prop :=
  ~ looks_numbered (op_name o) /\ match op_user o with Some u => ~ looks_numbered u | None => True end.
Definition good (r : registry O) : Prop :=
  forall k, In k (map fst (reg_items r)) -> ~ looks_numbered k \/ exists p n, k = numbered_key p n /\ (n < reg_count r)%N.

Lemma reg_has_false (r : registry O) k : reg_has r k = false -> ~ In k (map fst (reg_items r)).
Proof. unfold reg_has. apply mem_false, str_decides. Qed.
Lemma step_fresh r o : good r -> plain_op o ->
  ~ In (op_key r o) (map fst (reg_items r)) /\ good (run_op r o) /\
  reg_items (run_op r o) = reg_items r ++ [(op_key r o, op_obj o)].
Proof.
  intros G [P1 P2]. unfold op_key, run_op, register.
  assert (D : forall key n, mapping_key r (op_name o) (op_user o) false = (key, n) ->
    ~ In key (map fst (reg_items r)) /\
    ((n = reg_count r /\ ~ looks_numbered key) \/ (n = N.succ (reg_count r) /\ exists p, key = numbered_key p (reg_count r)))).
  { intros key n. unfold mapping_key. intros E.
    assert (DEF : (if negb (reg_has r (op_name o)) then (op_name o, reg_count r)
                   else (numbered_key (op_name o) (reg_count r), N.succ (reg_count r))) = (key, n) ->
      ~ In key (map fst (reg_items r)) /\
      ((n = reg_count r /\ ~ looks_numbered key) \/ (n = N.succ (reg_count r) /\ exists p, key = numbered_key p (reg_count r)))).
    { destruct (reg_has r (op_name o)) eqn:H; cbn [negb]; intros X; injection X as <- <-.
      - split; [|right; eauto]. intros I. apply G in I as [I|(p & m & I & L)]; [apply I; eexists _, _; reflexivity|].
        apply numbered_key_inj in I as [_ I]. lia.
      - split; [apply reg_has_false, H | left; auto]. }
    destruct (op_user o) as [[|c u]|]; [apply DEF, E | | apply DEF, E].
    destruct (reg_has r (c :: u)) eqn:H; cbn [negb orb] in E; [apply DEF, E|]. injection E as <- <-.
    split; [apply reg_has_false, H | left; auto]. }
  destruct (mapping_key r (op_name o) (op_user o) false) as [key n]. destruct (D key n eq_refl) as [F C]. cbn [fst snd reg_items].
  assert (E : dict_put str_eqb (reg_items r) key (op_obj o) = reg_items r ++ [(key, op_obj o)]) by (apply (dict_put_new str_eqb str_decides), F).
  split; [exact F|]. split; [|exact E]. intros k Hk. cbn [reg_items reg_count] in *. rewrite E, map_app in Hk. apply in_app_iff in Hk as [Hk|[<-|[]]].
  - apply G in Hk as [Hk|(p & m & -> & L)]; [auto|]. right. exists p, m. split; [reflexivity|]. cbn [reg_count snd]. destruct C as [[C _]|[C _]]; lia.
  - destruct C as [[_ X]|[C (p & ->)]]; [auto|]. right. exists p, (reg_count r). split; [reflexivity|]. cbn [reg_count snd]. lia.
Qed.
Lemma lookup_app (l l' : list (str * O)) k v : lookup str_eqb l k = Ok v -> lookup str_eqb (l ++ l') k = Ok v.
Proof. induction l as [|[h w] l IH]; cbn [lookup app]; [discriminate|]. destruct (str_eqb h k); auto. Qed.
Lemma run_keeps os : forall r, good r -> Forall plain_op os -> exists l, reg_items (run_ops r os) = reg_items r ++ l.
Proof.
  induction os as [|o os IH]; intros r G F; [exists []; rewrite app_nil_r; reflexivity|]. inversion F; subst. cbn [run_ops fold_left].
  destruct (step_fresh r o G H1) as (_ & G' & E). destruct (IH (run_op r o) G' H2) as (l & E').
  exists ((op_key r o, op_obj o) :: l). unfold run_ops in E'. rewrite E', E, <- app_assoc. reflexivity.
Qed.
Lemma run_good os : forall r, good r -> Forall plain_op os -> good (run_ops r os).
Proof.
  induction os as [|o os IH]; intros r G F; [exact G|]. inversion F; subst. cbn [run_ops fold_left]. apply IH; [|assumption].
  apply step_fresh; assumption.
Qed.
Lemma lookup_end (l : list (str * O)) k v : ~ In k (map fst l) -> lookup str_eqb (l ++ [(k, v)]) k = Ok v.
Proof.
  induction l as [|[h w] l IH]; cbn [lookup app map fst]; intros N; [rewrite str_eqb_refl; reflexivity|].
  destruct (str_eqb_spec h k) as [->|]; [exfalso; apply N; left; reflexivity|]. apply IH. intros H. apply N. right. exact H.
Qed.
Lemma registry_history r os1 o os2 : good r -> Forall plain_op (os1 ++ o :: os2) ->
  let key := op_key (run_ops r os1) o in
  reg_get (run_ops r os1) key = Raise KeyError /\
  reg_get (run_ops r (os1 ++ o :: os2)) key = Ok (op_obj o).
Proof.
  intros G F key. apply Forall_app in F as [F1 F2]. inversion F2 as [|? ? P F3]; subst.
  pose proof (run_good os1 r G F1) as G1. destruct (step_fresh _ o G1 P) as (N & G2 & E).
  split; [apply (lookup_missing str_eqb str_decides); auto|].
  unfold run_ops at 1. rewrite fold_left_app. cbn [fold_left]. fold (run_ops r os1).
  destruct (run_keeps os2 (run_op (run_ops r os1) o) G2 F3) as (l & E'). unfold run_ops in E'. unfold reg_get. fold (run_ops r os1) in E'.
  rewrite E', E. apply lookup_app, lookup_end. exact N.
Qed.
Lemma base_kept r os k v : good r -> Forall plain_op os -> reg_get r k = Ok v -> reg_get (run_ops r os) k = Ok v.
Proof. intros G F H. destruct (run_keeps os r G F) as (l & E). unfold reg_get. rewrite E. apply lookup_app, H. Qed.
End Registry.
Arguments reg_op O : clear implicits.
